{"id": "C01", "title": "all_minutes is exactly the set of trading minutes, in order", "statement": "all_minutes is strictly increasing and a timestamp occurs in it iff it lies on the one-minute grid started at some session open, between open and (break start or, without a break, close) inclusive, or on the grid started at that session's break end, between break end and close inclusive.", "quantifier": "every well-formed schedule (any number of sessions, any open/break/close instants with open <= break_start < break_end <= close < next open); every timestamp", "why_tests_cant": "The schedule and the timestamp range over unbounded sets; tests sample a few fixed calendars and a few instants.", "anchors": ["trading_calendars/trading_calendar.py:TradingCalendar.all_minutes", "trading_calendars/calendar_helpers.py:compute_all_minutes"]}
{"id": "C02", "title": "is_open_on_minute answers exactly session membership", "statement": "is_open_on_minute(t, ignore_breaks=True) is True iff some session has open <= t <= close; with ignore_breaks=False it is True iff in addition t is the open or t is not in [break_start, break_end) of that session. It never raises.", "quantifier": "every well-formed schedule (any number of sessions, any open/break/close instants with open <= break_start < break_end <= close < next open); every timestamp; both values of ignore_breaks", "why_tests_cant": "The schedule and the timestamp range over unbounded sets; tests sample a few fixed calendars and a few instants.", "anchors": ["trading_calendars/trading_calendar.py:TradingCalendar.is_open_on_minute"]}
{"id": "C03", "title": "is_open_on_minute and all_minutes agree", "statement": "For a whole-minute timestamp, is_open_on_minute(t) holds iff t is in all_minutes. (True when no session has a break; with breaks the two disagree exactly at the break-start minutes, which are listed in all_minutes but reported closed.)", "quantifier": "every well-formed schedule (any number of sessions, any open/break/close instants with open <= break_start < break_end <= close < next open); every timestamp on the minute grid", "why_tests_cant": "The schedule and the timestamp range over unbounded sets; tests sample a few fixed calendars and a few instants.", "anchors": ["trading_calendars/trading_calendar.py:TradingCalendar.is_open_on_minute", "trading_calendars/trading_calendar.py:TradingCalendar.all_minutes", "trading_calendars/calendar_helpers.py:compute_all_minutes"]}
{"id": "C04", "title": "next_open / next_close return the least later divider", "statement": "next_open(t) (next_close(t)) returns the smallest session open (close) strictly greater than t, and raises IndexError iff there is none.", "quantifier": "every well-formed schedule (any number of sessions, any open/break/close instants with open <= break_start < break_end <= close < next open); every timestamp", "why_tests_cant": "The schedule and the timestamp range over unbounded sets; tests sample a few fixed calendars and a few instants.", "anchors": ["trading_calendars/trading_calendar.py:TradingCalendar.next_open", "trading_calendars/trading_calendar.py:TradingCalendar.next_close", "trading_calendars/calendar_helpers.py:next_divider_idx"]}
{"id": "C05", "title": "previous_open / previous_close return the greatest earlier divider", "statement": "previous_open(t) (previous_close(t)) returns the largest session open (close) strictly less than t, and raises ValueError iff there is none.", "quantifier": "every well-formed schedule (any number of sessions, any open/break/close instants with open <= break_start < break_end <= close < next open); every timestamp", "why_tests_cant": "The schedule and the timestamp range over unbounded sets; tests sample a few fixed calendars and a few instants.", "anchors": ["trading_calendars/trading_calendar.py:TradingCalendar.previous_open", "trading_calendars/trading_calendar.py:TradingCalendar.previous_close", "trading_calendars/calendar_helpers.py:previous_divider_idx"]}
{"id": "C06", "title": "next_minute / previous_minute are neighbour and inverse maps on trading minutes", "statement": "next_minute(t) is the least trading minute after t, previous_minute(t) the greatest before t (whether or not t is a trading minute); on trading minutes previous_minute(next_minute(t)) = t and next_minute(previous_minute(t)) = t whenever the inner call succeeds.", "quantifier": "every well-formed schedule (any number of sessions, any open/break/close instants with open <= break_start < break_end <= close < next open); every timestamp", "why_tests_cant": "The schedule and the timestamp range over unbounded sets; tests sample a few fixed calendars and a few instants.", "anchors": ["trading_calendars/trading_calendar.py:TradingCalendar.next_minute", "trading_calendars/trading_calendar.py:TradingCalendar.previous_minute"]}
{"id": "C07", "title": "next_session_label / previous_session_label walk the sessions", "statement": "On a session label, next_session_label returns the least later session and raises ValueError exactly on the last one; previous_session_label returns the greatest earlier one and raises ValueError exactly on the first one; the two are mutually inverse; on a non-session both raise KeyError.", "quantifier": "every well-formed schedule (any number of sessions, any open/break/close instants with open <= break_start < break_end <= close < next open); every label", "why_tests_cant": "The schedule and the timestamp range over unbounded sets; tests sample a few fixed calendars and a few instants.", "anchors": ["trading_calendars/trading_calendar.py:TradingCalendar.next_session_label", "trading_calendars/trading_calendar.py:TradingCalendar.previous_session_label", "trading_calendars/trading_calendar.py:TradingCalendar.is_session"]}
{"id": "C08", "title": "minutes_for_session partitions all_minutes", "statement": "minutes_for_session(s) is exactly the trading minutes t with open(s) <= t <= close(s), never raises for a session, raises KeyError otherwise, and the concatenation over all sessions in order is all_minutes.", "quantifier": "every well-formed schedule (any number of sessions, any open/break/close instants with open <= break_start < break_end <= close < next open); every session", "why_tests_cant": "The schedule and the timestamp range over unbounded sets; tests sample a few fixed calendars and a few instants.", "anchors": ["trading_calendars/trading_calendar.py:TradingCalendar.minutes_for_session", "trading_calendars/trading_calendar.py:TradingCalendar.all_minutes"]}
{"id": "C09", "title": "minutes_in_range returns the trading minutes in the closed interval", "statement": "minutes_in_range(a, b) returns exactly the trading minutes t with a <= t <= b in increasing order, for arbitrary a and b (they need not be calendar minutes). (True when b is not after the last trading minute; after it the call raises IndexError.)", "quantifier": "every well-formed schedule (any number of sessions, any open/break/close instants with open <= break_start < break_end <= close < next open); every pair of timestamps", "why_tests_cant": "The schedule and the timestamp range over unbounded sets; tests sample a few fixed calendars and a few instants.", "anchors": ["trading_calendars/trading_calendar.py:TradingCalendar.minutes_in_range"]}
{"id": "C10", "title": "minutes_for_sessions_in_range concatenates the sessions", "statement": "For sessions a <= b, minutes_for_sessions_in_range(a, b) equals the concatenation of minutes_for_session(s) for s in sessions_in_range(a, b).", "quantifier": "every well-formed schedule (any number of sessions, any open/break/close instants with open <= break_start < break_end <= close < next open); every pair of sessions", "why_tests_cant": "The schedule and the timestamp range over unbounded sets; tests sample a few fixed calendars and a few instants.", "anchors": ["trading_calendars/trading_calendar.py:TradingCalendar.minutes_for_sessions_in_range", "trading_calendars/trading_calendar.py:TradingCalendar.sessions_in_range"]}
{"id": "C11", "title": "minutes_count_for_sessions_in_range counts the minutes", "statement": "minutes_count_for_sessions_in_range(a, b) equals len(minutes_for_sessions_in_range(a, b)). (True when the sessions in range have no break; otherwise it is smaller by exactly the number of sessions with a break.)", "quantifier": "every well-formed schedule (any number of sessions, any open/break/close instants with open <= break_start < break_end <= close < next open); every pair of sessions", "why_tests_cant": "The schedule and the timestamp range over unbounded sets; tests sample a few fixed calendars and a few instants.", "anchors": ["trading_calendars/trading_calendar.py:TradingCalendar.minutes_count_for_sessions_in_range", "trading_calendars/trading_calendar.py:TradingCalendar._minutes_per_session"]}
{"id": "C12", "title": "sessions_in_range returns the sessions in the closed interval", "statement": "sessions_in_range(a, b) returns exactly the session labels l with a <= l <= b in increasing order, for arbitrary a and b.", "quantifier": "every well-formed schedule (any number of sessions, any open/break/close instants with open <= break_start < break_end <= close < next open); every pair of timestamps", "why_tests_cant": "The schedule and the timestamp range over unbounded sets; tests sample a few fixed calendars and a few instants.", "anchors": ["trading_calendars/trading_calendar.py:TradingCalendar.sessions_in_range"]}
{"id": "C13", "title": "sessions_window returns a clipped contiguous window", "statement": "sessions_window(s, n) for a session s is the contiguous run of sessions that starts (n >= 0) or ends (n < 0) at s and has min(|n|, number of sessions available on that side) + 1 elements; KeyError if s is not a session.", "quantifier": "every well-formed schedule (any number of sessions, any open/break/close instants with open <= break_start < break_end <= close < next open); every session; every integer count", "why_tests_cant": "The schedule and the timestamp range over unbounded sets; tests sample a few fixed calendars and a few instants.", "anchors": ["trading_calendars/trading_calendar.py:TradingCalendar.sessions_window"]}
{"id": "C14", "title": "session_distance counts sessions with sign", "statement": "session_distance(a, b) with a <= b is the number of sessions in [a, b]; with a > b it is minus the number of sessions in [b, a]; hence |session_distance(a,b)| = len(sessions_in_range(min, max)).", "quantifier": "every well-formed schedule (any number of sessions, any open/break/close instants with open <= break_start < break_end <= close < next open); every pair of timestamps", "why_tests_cant": "The schedule and the timestamp range over unbounded sets; tests sample a few fixed calendars and a few instants.", "anchors": ["trading_calendars/trading_calendar.py:TradingCalendar.session_distance"]}
{"id": "C15", "title": "minutes_window returns count trading minutes from the start", "statement": "minutes_window(t, n): starting from the latest trading minute m <= t, n > 0 gives the n trading minutes beginning with m (clipped at the end of the calendar), n < 0 gives the |n| trading minutes ending with m, n = 0 gives none; t before the first trading minute raises KeyError. (True if |n| does not reach past the first minute and t is not after the last minute; the two excluded cases give a wrapped slice and IndexError.)", "quantifier": "every well-formed schedule (any number of sessions, any open/break/close instants with open <= break_start < break_end <= close < next open); every timestamp; every integer count", "why_tests_cant": "The schedule and the timestamp range over unbounded sets; tests sample a few fixed calendars and a few instants.", "anchors": ["trading_calendars/trading_calendar.py:TradingCalendar.minutes_window"]}
{"id": "C16", "title": "minute_to_session_label (next) finds the containing or next session", "statement": "minute_to_session_label(t) returns the session containing t if there is one, otherwise the first session opening after t; it raises IndexError iff t is after the last close.", "quantifier": "every well-formed schedule (any number of sessions, any open/break/close instants with open <= break_start < break_end <= close < next open); every timestamp", "why_tests_cant": "The schedule and the timestamp range over unbounded sets; tests sample a few fixed calendars and a few instants.", "anchors": ["trading_calendars/trading_calendar.py:TradingCalendar.minute_to_session_label"]}
{"id": "C17", "title": "minute_to_session_label (previous) finds the containing or previous session", "statement": "minute_to_session_label(t, \"previous\") returns the session containing t if there is one, otherwise the last session closing before t. (True from the first open to the last close; before the first open the LAST session of the calendar is returned; after the last close IndexError.)", "quantifier": "every well-formed schedule (any number of sessions, any open/break/close instants with open <= break_start < break_end <= close < next open); every timestamp", "why_tests_cant": "The schedule and the timestamp range over unbounded sets; tests sample a few fixed calendars and a few instants.", "anchors": ["trading_calendars/trading_calendar.py:TradingCalendar.minute_to_session_label"]}
{"id": "C18", "title": "minute_to_session_label (none) and round trip with minutes_for_session", "statement": "minute_to_session_label(t, \"none\") returns the session containing t iff is_open_on_minute(t), and raises otherwise; for every session s and every t in minutes_for_session(s), minute_to_session_label(t) = minute_to_session_label(t, \"previous\") = s. An unknown direction raises for every t.", "quantifier": "every well-formed schedule (any number of sessions, any open/break/close instants with open <= break_start < break_end <= close < next open); every timestamp, session and direction", "why_tests_cant": "The schedule and the timestamp range over unbounded sets; tests sample a few fixed calendars and a few instants.", "anchors": ["trading_calendars/trading_calendar.py:TradingCalendar.minute_to_session_label", "trading_calendars/trading_calendar.py:TradingCalendar.minutes_for_session"]}
{"id": "C19", "title": "The minute_to_session_label cache is unobservable", "statement": "In every sequence of minute_to_session_label calls (any timestamps and directions, including failing ones) on one calendar object, each call returns or raises exactly what it would on a fresh calendar object.", "quantifier": "every schedule; every finite history of calls", "why_tests_cant": "The set of call histories is infinite; a stale cache entry shows only after a particular sequence.", "anchors": ["trading_calendars/trading_calendar.py:TradingCalendar.minute_to_session_label"]}
{"id": "C20", "title": "minute_index_to_session_labels is the pointwise session lookup", "statement": "For a non-decreasing index of timestamps each lying inside a session, minute_index_to_session_labels returns the label of the containing session for each; if the index is not sorted it raises ValueError; if any entry lies outside every session it raises; labels come out sorted.", "quantifier": "every well-formed schedule (any number of sessions, any open/break/close instants with open <= break_start < break_end <= close < next open); every list of timestamps", "why_tests_cant": "The schedule and the timestamp range over unbounded sets; tests sample a few fixed calendars and a few instants.", "anchors": ["trading_calendars/trading_calendar.py:TradingCalendar.minute_index_to_session_labels"]}
{"id": "C21", "title": "execution minutes are the minutes between the execution times", "statement": "execution_minutes_for_session(s) is exactly the trading minutes between execution_time_from_open(open) and execution_time_from_close(close); for calendars that do not override these it equals minutes_for_session(s); execution_minutes_for_sessions_in_range is the concatenation over the sessions in range (ValueError for an empty range); for us_futures they are the minutes from 12.5 hours after the open to one hour before the close.", "quantifier": "every well-formed schedule (any number of sessions, any open/break/close instants with open <= break_start < break_end <= close < next open); every session and pair of sessions", "why_tests_cant": "The schedule and the timestamp range over unbounded sets; tests sample a few fixed calendars and a few instants.", "anchors": ["trading_calendars/trading_calendar.py:TradingCalendar.execution_minutes_for_session", "trading_calendars/trading_calendar.py:TradingCalendar.execution_minutes_for_sessions_in_range", "trading_calendars/us_futures_calendar.py:QuantopianUSFuturesCalendar"]}
{"id": "C22", "title": "Per-session accessors agree with each other and with the schedule", "statement": "open_and_close_for_session, break_start_and_end_for_session, session_open/close/break_start/break_end return the instants of that session (NaT when there is no break), raise KeyError for non-sessions; session_opens_in_range / session_closes_in_range list the opens/closes of exactly sessions_in_range(a, b), in the same order.", "quantifier": "every well-formed schedule (any number of sessions, any open/break/close instants with open <= break_start < break_end <= close < next open); every label and pair of timestamps", "why_tests_cant": "The schedule and the timestamp range over unbounded sets; tests sample a few fixed calendars and a few instants.", "anchors": ["trading_calendars/trading_calendar.py:TradingCalendar.open_and_close_for_session", "trading_calendars/trading_calendar.py:TradingCalendar.session_opens_in_range", "trading_calendars/trading_calendar.py:TradingCalendar.session_closes_in_range"]}
{"id": "C23", "title": "A day is a session iff it is an unmasked non-holiday in range", "statement": "After construction with midnight start and end, a day d is a session label iff start <= d <= end, the week mask allows its weekday, and d is neither an ad hoc nor a regular holiday; labels are strictly increasing.", "quantifier": "every calendar definition (week mask, regular and ad hoc holidays, open/close/break time tables, special opens/closes, time zone), every start and end", "why_tests_cant": "Calendar definitions and date ranges are unbounded; tests compare a handful of calendars with stored answer tables.", "anchors": ["trading_calendars/trading_calendar.py:TradingCalendar.__init__", "trading_calendars/trading_calendar.py:TradingCalendar.day", "trading_calendars/trading_calendar.py:TradingCalendar.weekmask"]}
{"id": "C24", "title": "Regular opens and closes follow the table entry in force on that day", "statement": "For every session without a special open (close), the open (close) instant is the local wall-clock time of the table entry in force on that day (the latest entry whose start date is <= the day), on the day shifted by open_offset (close_offset), converted to UTC.", "quantifier": "every calendar definition (week mask, regular and ad hoc holidays, open/close/break time tables, special opens/closes, time zone), every start and end", "why_tests_cant": "Calendar definitions and date ranges are unbounded; tests compare a handful of calendars with stored answer tables.", "anchors": ["trading_calendars/trading_calendar.py:_group_times", "trading_calendars/trading_calendar.py:selection", "trading_calendars/utils/pandas_utils.py:days_at_time"]}
{"id": "C25", "title": "Special opens and closes override exactly their days", "statement": "A session listed as a special open (close) gets the special time as its open (close); the opens and closes of all other sessions, and the session labels, are unaffected; breaks are removed exactly on special-close days.", "quantifier": "every calendar definition (week mask, regular and ad hoc holidays, open/close/break time tables, special opens/closes, time zone), every start and end", "why_tests_cant": "Calendar definitions and date ranges are unbounded; tests compare a handful of calendars with stored answer tables.", "anchors": ["trading_calendars/trading_calendar.py:_overwrite_special_dates", "trading_calendars/trading_calendar.py:_remove_breaks_for_special_dates", "trading_calendars/trading_calendar.py:TradingCalendar._special_dates"]}
{"id": "C26", "title": "A special date that is not a session is rejected", "statement": "If a special open or close that applies to the requested range falls on a day that is not a session, construction raises ValueError; otherwise the special dates never cause a failure.", "quantifier": "every calendar definition (week mask, regular and ad hoc holidays, open/close/break time tables, special opens/closes, time zone), every start and end", "why_tests_cant": "Calendar definitions and date ranges are unbounded; tests compare a handful of calendars with stored answer tables.", "anchors": ["trading_calendars/trading_calendar.py:_overwrite_special_dates"]}
{"id": "C27", "title": "Special closes inside the requested range take effect", "statement": "Every regularly scheduled special close whose date d satisfies start <= d <= end takes effect on session d. (True when the special instant itself is <= end; refuted for d = end at midnight, whose special close is silently ignored because the filter compares the close instant, not the date, with end.)", "quantifier": "every calendar definition (week mask, regular and ad hoc holidays, open/close/break time tables, special opens/closes, time zone), every start and end", "why_tests_cant": "Calendar definitions and date ranges are unbounded; tests compare a handful of calendars with stored answer tables.", "anchors": ["trading_calendars/trading_calendar.py:TradingCalendar._special_dates"]}
{"id": "C28", "title": "early_closes / late_opens list exactly the special sessions", "statement": "After successful construction early_closes (late_opens) lists exactly the sessions whose close (open) was taken from a special close (open), in order.", "quantifier": "every calendar definition (week mask, regular and ad hoc holidays, open/close/break time tables, special opens/closes, time zone), every start and end", "why_tests_cant": "Calendar definitions and date ranges are unbounded; tests compare a handful of calendars with stored answer tables.", "anchors": ["trading_calendars/trading_calendar.py:TradingCalendar.early_closes", "trading_calendars/trading_calendar.py:TradingCalendar.late_opens", "trading_calendars/trading_calendar.py:TradingCalendar.__init__"]}
{"id": "C29", "title": "Constructed schedules are well formed", "statement": "If, in local wall-clock terms, each session opens before it closes, breaks lie strictly inside, and each session closes before the next one opens, then in the constructed schedule the UTC instants are in the same order (so all the query properties apply), for every time zone whose offsets change at sufficiently separated instants.", "quantifier": "every calendar definition (week mask, regular and ad hoc holidays, open/close/break time tables, special opens/closes, time zone), every start and end", "why_tests_cant": "Calendar definitions and date ranges are unbounded; tests compare a handful of calendars with stored answer tables. Time-zone tables are unbounded too.", "anchors": ["trading_calendars/trading_calendar.py:TradingCalendar.__init__", "trading_calendars/utils/pandas_utils.py:days_at_time"]}
{"id": "C30", "title": "days_at_time preserves wall-clock time across DST", "statement": "Each result of days_at_time(days, t, tz, k), read back in tz, shows the wall-clock time t on day + k; the result has one entry per day in the same order; it is strictly increasing for strictly increasing days; it raises exactly when some local time does not exist or is ambiguous.", "quantifier": "every time zone given by a table of UTC offset changes; every list of days, time and day offset", "why_tests_cant": "Time zones and dates are unbounded; a test checks one DST change.", "anchors": ["trading_calendars/utils/pandas_utils.py:days_at_time"]}
{"id": "C31", "title": "The schedule of a day does not depend on the requested range", "statement": "If two calendars are built from the same definition over different ranges, both containing day d away from the special-date boundary effect, then d is a session in both or neither, with the same open, close and break.", "quantifier": "every calendar definition (week mask, regular and ad hoc holidays, open/close/break time tables, special opens/closes, time zone), every start and end; every pair of ranges", "why_tests_cant": "Pairs of ranges form an infinite set.", "anchors": ["trading_calendars/trading_calendar.py:TradingCalendar.__init__"]}
{"id": "C32", "title": "Precomputed calendars refuse ranges beyond their data", "statement": "Construction of a precomputed-holiday calendar succeeds only if its first session's year is at least the earliest precomputed year and its last session's year is at most the latest one; otherwise it raises ValueError; within the data the precomputed days are never sessions.", "quantifier": "every table of precomputed holidays, every start and end", "why_tests_cant": "Calendar definitions and date ranges are unbounded; tests compare a handful of calendars with stored answer tables.", "anchors": ["trading_calendars/precomputed_trading_calendar.py:PrecomputedTradingCalendar"]}
{"id": "C33", "title": "Always-open and weekday calendars", "statement": "For 24/7, every day of the range is a session and is_open_on_minute is True for every whole minute from the first open to the last close; next_minute adds exactly one minute. For 24/5, exactly the Monday-Friday days are sessions and weekends are closed.", "quantifier": "every start <= end; every whole-minute timestamp", "why_tests_cant": "Calendar definitions and date ranges are unbounded; tests compare a handful of calendars with stored answer tables.", "anchors": ["trading_calendars/always_open.py:AlwaysOpenCalendar", "trading_calendars/weekday_calendar.py:WeekdayCalendar"]}
{"id": "C34", "title": "Breaks are paired", "statement": "Construction raises ValueError if some session has a break start but no break end or conversely; in every constructed calendar each session has both or neither.", "quantifier": "every calendar definition (week mask, regular and ad hoc holidays, open/close/break time tables, special opens/closes, time zone), every start and end", "why_tests_cant": "Calendar definitions and date ranges are unbounded; tests compare a handful of calendars with stored answer tables.", "anchors": ["trading_calendars/trading_calendar.py:_check_breaks_match"]}
{"id": "C35", "title": "Aliases are transparent", "statement": "If register_calendar_alias(a, r) succeeds then get_calendar(a) and get_calendar(r) give the same instance (or fail together), for the resulting state, and chains of aliases resolve to the end of the chain.", "quantifier": "every dispatcher reachable by any finite sequence of API calls from one with acyclic aliases; every name", "why_tests_cant": "Histories of registrations are unbounded; tests run a few fixed sequences.", "anchors": ["trading_calendars/calendar_utils.py:TradingCalendarDispatcher.register_calendar_alias", "trading_calendars/calendar_utils.py:TradingCalendarDispatcher.resolve_alias", "trading_calendars/calendar_utils.py:TradingCalendarDispatcher.get_calendar"]}
{"id": "C36", "title": "A calendar is built at most once while registered", "statement": "After get_calendar(n) succeeds, every later get_calendar(n) returns the identical instance, without calling a factory for it, until the name (or an alias on its chain) is deregistered, force-overwritten or cleared.", "quantifier": "every dispatcher reachable by any finite sequence of API calls from one with acyclic aliases; every name", "why_tests_cant": "Histories of registrations are unbounded; tests run a few fixed sequences.", "anchors": ["trading_calendars/calendar_utils.py:TradingCalendarDispatcher.get_calendar"]}
{"id": "C37", "title": "The alias graph stays acyclic", "statement": "From a dispatcher whose aliases are acyclic, no sequence of API calls (including forced and failing ones) can create an alias cycle; therefore resolve_alias and get_calendar terminate and never raise CyclicCalendarAlias.", "quantifier": "every dispatcher reachable by any finite sequence of API calls from one with acyclic aliases; every name", "why_tests_cant": "Histories of registrations are unbounded; tests run a few fixed sequences.", "anchors": ["trading_calendars/calendar_utils.py:TradingCalendarDispatcher.resolve_alias", "trading_calendars/calendar_utils.py:TradingCalendarDispatcher.register_calendar_alias"]}
{"id": "C38", "title": "A rejected cyclic alias leaves the dispatcher unchanged", "statement": "If register_calendar_alias(a, r) raises CyclicCalendarAlias the dispatcher is as before the call. (True with force=False; refuted with force=True: the previous registration of a has already been deleted.) It raises it iff adding the edge would close a cycle.", "quantifier": "every dispatcher reachable by any finite sequence of API calls from one with acyclic aliases; every name", "why_tests_cant": "Histories of registrations are unbounded; tests run a few fixed sequences.", "anchors": ["trading_calendars/calendar_utils.py:TradingCalendarDispatcher.register_calendar_alias"]}
{"id": "C39", "title": "Name collisions are rejected without side effects", "statement": "register_calendar / register_calendar_type / register_calendar_alias without force on a known name raise CalendarNameCollision and change nothing; on an unknown name they succeed (an alias unless cyclic) and only affect that name; with force they never raise CalendarNameCollision and replace the old registration.", "quantifier": "every dispatcher reachable by any finite sequence of API calls from one with acyclic aliases; every name", "why_tests_cant": "Histories of registrations are unbounded; tests run a few fixed sequences.", "anchors": ["trading_calendars/calendar_utils.py:TradingCalendarDispatcher.register_calendar", "trading_calendars/calendar_utils.py:TradingCalendarDispatcher.register_calendar_type", "trading_calendars/calendar_utils.py:TradingCalendarDispatcher.register_calendar_alias"]}
{"id": "C40", "title": "deregister_calendar and clear_calendars remove names", "statement": "After deregister_calendar(n), n is unknown (get_calendar(n) raises InvalidCalendarName) and the registration of every other name is unchanged; after clear_calendars every name is unknown. Neither ever raises.", "quantifier": "every dispatcher reachable by any finite sequence of API calls from one with acyclic aliases; every name", "why_tests_cant": "Histories of registrations are unbounded; tests run a few fixed sequences.", "anchors": ["trading_calendars/calendar_utils.py:TradingCalendarDispatcher.deregister_calendar", "trading_calendars/calendar_utils.py:TradingCalendarDispatcher.clear_calendars"]}
{"id": "C41", "title": "has_calendar, get_calendar_names and get_calendar agree", "statement": "get_calendar_names lists without repetition exactly the names for which has_calendar is True; get_calendar(n) raises InvalidCalendarName iff the name n resolves to is neither built nor has a factory. (That every listed name can be obtained is refuted: an alias may dangle.)", "quantifier": "every dispatcher reachable by any finite sequence of API calls from one with acyclic aliases; every name", "why_tests_cant": "Histories of registrations are unbounded; tests run a few fixed sequences.", "anchors": ["trading_calendars/calendar_utils.py:TradingCalendarDispatcher.has_calendar", "trading_calendars/calendar_utils.py:TradingCalendarDispatcher.get_calendar_names", "trading_calendars/calendar_utils.py:TradingCalendarDispatcher.get_calendar"]}
{"id": "C42", "title": "Every default name and alias is obtainable", "statement": "In the default dispatcher, every default alias resolves (in one step) to a default calendar factory, no default alias collides with a calendar name, and this survives any sequence of get_calendar calls.", "quantifier": "every default name; every sequence of get_calendar calls", "why_tests_cant": "Histories of registrations are unbounded; tests run a few fixed sequences.", "anchors": ["trading_calendars/calendar_utils.py:_default_calendar_factories", "trading_calendars/calendar_utils.py:_default_calendar_aliases"]}
{"id": "C43", "title": "lazyval computes once per object", "statement": "In every history of reads (and failed writes) of a lazy attribute over any set of objects, the underlying function runs successfully at most once per object, each object always sees its own first value, a raising computation is retried on the next read, and writes raise AttributeError without effect.", "quantifier": "every history of accesses over every set of objects", "why_tests_cant": "Histories are unbounded.", "anchors": ["trading_calendars/utils/memoize.py:lazyval", "trading_calendars/utils/memoize.py:CachedObject"]}
{"id": "C44", "title": "tcal renders each day of the month exactly once in its weekday column", "statement": "For every calendar, year and month, the month rendered by tcal contains every day of the month exactly once, in order, in the column of its weekday, bracketed iff the day is not a session; nothing else appears below the heading. The page of a year shows its twelve months whole, in order, in four bands of three, and nothing else.", "quantifier": "every year, every month, every set of sessions", "why_tests_cant": "Years and session sets are unbounded.", "anchors": ["trading_calendars/tcal.py:_render_month", "trading_calendars/tcal.py:_concat_lines", "trading_calendars/tcal.py:main"]}
{"id": "C45", "title": "tcal reads its arguments as CALENDAR [[MONTH] YEAR]", "statement": "tcal shows the current month for a calendar name alone, the year for a name and an integer, the month for a name, a month and a year in this order; in every other case (no arguments, a help flag anywhere, too many arguments, an unknown calendar, a non-integer) it shows nothing and exits with the message for that case.", "quantifier": "every argument list, every set of calendars", "why_tests_cant": "Argument lists are unbounded.", "anchors": ["trading_calendars/tcal.py:parse_args", "trading_calendars/tcal.py:main", "trading_calendars/tcal.py:_int_arg"]}
{"id": "C46", "title": "A holiday rule yields exactly its dates in every range", "statement": "For every holiday rule (month and day, with a sequence of offsets or an observance, days of week, start and end dates, or a single year) and every range, HolidayCalendar([...]).holidays(start, end) lists exactly, in order and without repetition, the days of the range on which some rule falls, and so the answer for a day does not depend on the range asked for. This holds for every rule that stays within 300 days of its month and day, in particular for all rules of the bundled exchanges; a rule with far-reaching offsets loses dates near the ends of the range.", "quantifier": "every list of rules, every range", "why_tests_cant": "Rules, years and ranges are unbounded.", "anchors": ["trading_calendars/trading_calendar.py:HolidayCalendar", "trading_calendars/common_holidays.py"]}
{"id": "C47", "title": "Observance functions move a holiday to the documented workday", "statement": "For every date: weekend_to_monday / next_monday give the first workday from it on, nearest_workday the closest one, previous_friday the last one up to it, next_monday_or_tuesday the first workday that is not the one taken by a holiday the day before, sunday_to_monday the first day that is not a Sunday; each of the exchange specific ones gives the day its description says. Two holidays on consecutive dates with weekend_to_monday and next_monday_or_tuesday are never kept on the same day.", "quantifier": "every date (unbounded)", "why_tests_cant": "Dates are unbounded.", "anchors": ["trading_calendars/common_holidays.py", "trading_calendars/exchange_calendar_xhkg.py", "trading_calendars/exchange_calendar_xbkk.py"]}
{"id": "C48", "title": "Weekday offsets give the n-th weekday", "statement": "The offset MO(k)...SU(k) gives the k-th such weekday on or after the date (counting it), for negative k on or before it; so a rule on the first of a month with MO(2) is the second Monday of the month in every year, with the month end and MO(-1) the last one; US Thanksgiving is the fourth Thursday of November.", "quantifier": "every date, every weekday, every k", "why_tests_cant": "Dates and k are unbounded.", "anchors": ["trading_calendars/us_holidays.py", "trading_calendars/common_holidays.py"]}
{"id": "C49", "title": "Easter rules follow the computus", "statement": "Good Friday, Easter Monday and the other Easter rules fall, in every year, at their distance from the first Sunday after the ecclesiastical full moon (Gregorian tables), Easter lies between March 22 and April 25; Orthodox Easter is the first Sunday after the Julian full moon.", "quantifier": "every year (Gregorian: all; Orthodox: 1500 to 4099, as far as the library accepts)", "why_tests_cant": "Years are unbounded and the cycle of Easter is 5.7 million years.", "anchors": ["trading_calendars/common_holidays.py:good_friday", "trading_calendars/common_holidays.py:orthodox_easter", "trading_calendars/exchange_calendar_asex.py"]}
{"id": "C50", "title": "Tel Aviv holidays follow the Hebrew calendar", "statement": "Every Hebrew year starts on the day of the mean new moon of its first month, postponed by the four rules, never on a Sunday, Wednesday or Friday, and lasts 353, 354, 355, 383, 384 or 385 days. The dates of the Tel Aviv holiday rules are exactly the days of the Hebrew year the exchange documents, with Memorial and Independence Day and the fast of Av moved away from the sabbath. (The claim in the source that a Gregorian year always overlaps exactly two given Hebrew years is refuted for far years.)", "quantifier": "every year for which the library works (to 9999)", "why_tests_cant": "Years are unbounded; the Hebrew calendar has a cycle of 689472 years.", "anchors": ["trading_calendars/tase_holidays.py", "trading_calendars/exchange_calendar_xtae.py"]}
{"id": "C51", "title": "An exchange has a session exactly on its trading days", "statement": "For each bundled rule-based exchange, every zone and every range over which its calendar can be constructed, the sessions are exactly the days of the range that are in its week mask, on which none of its regular holiday rules falls and which are not among its ad hoc holidays (Tel Aviv: no feast of the Hebrew calendar); so two calendars of the exchange over different ranges agree on every day both cover. (That rules close the exchange in every year is refuted: they only apply from 1970 to 2200, and Athens knows Orthodox Easter only up to 2020.)", "quantifier": "each of the 51 bundled exchanges; every range; every zone", "why_tests_cant": "Ranges are unbounded, and the day of every year follows from rules.", "anchors": ["trading_calendars/exchange_calendar_*.py", "trading_calendars/trading_calendar.py:TradingCalendar.__init__"]}
{"id": "C52", "title": "Sessions of an exchange open, break and close at the announced times", "statement": "For each bundled exchange, every zone with reasonable clocks and every constructed calendar: on a day with a special close (by rule or ad hoc) the session closes at that local time and has no break, on a day with a special open it opens at that time, on every other day it opens, breaks and closes at the time in force, with the offset in days, on the local clocks; early_closes and late_opens list exactly the days with special times. No day is given two different special times, and two calendars whose ranges include the days around a session agree on its times.", "quantifier": "each of the 51 bundled exchanges; every range; every zone", "why_tests_cant": "Ranges and zones are unbounded.", "anchors": ["trading_calendars/exchange_calendar_*.py", "trading_calendars/trading_calendar.py:TradingCalendar._special_dates", "trading_calendars/trading_calendar.py:days_at_time"]}
{"id": "C53", "title": "Every bundled exchange can be constructed over every range without contradictory days", "statement": "On the clocks of the tz database, each bundled exchange can be constructed over every range from 1950 on that contains a trading day and none of the days (listed, for XNYS, XIST and XKLS) that are given a special close although they are holidays; its schedule is then well formed. Over a range that extends a day or two beyond such a day, construction raises ValueError. (So that the default range always works is refuted: XIST and XKLS fail once the end reaches 2029.)", "quantifier": "each of the 51 bundled exchanges; every range", "why_tests_cant": "Ranges are unbounded; that no special date is ever a holiday has to hold in every year.", "anchors": ["trading_calendars/exchange_calendar_*.py", "trading_calendars/trading_calendar.py:_overwrite_special_dates"]}
{"id": "C54", "title": "The default factories build the announced range and refuse years without data", "statement": "Calling the class registered under a default name with a range, or with the default range (1990, for XTKS and us_futures 2000, to a year after the import; for XBOM, XKRX, XSES and XSHG the years of their holiday lists), gives the calendar of that exchange over that range; XBOM, XKRX, XSES, XSHG and XHKG raise ValueError exactly when a session would lie outside the years for which their holidays are known, and in each of these years the tables do have a date. Without arguments every factory succeeds, at any time before the contradictory days of C53 and the end of the tables (with well-formed schedules of exactly the trading days).", "quantifier": "every default name; every range; every time of import; every zone table", "why_tests_cant": "Ranges and import times are unbounded.", "anchors": ["trading_calendars/precomputed_trading_calendar.py", "trading_calendars/exchange_calendar_xhkg.py:XHKGExchangeCalendar.__init__", "trading_calendars/exchange_calendar_xtks.py", "trading_calendars/us_futures_calendar.py", "trading_calendars/calendar_utils.py:_default_calendar_factories"]}
{"id": "C55", "title": "The name of a calendar leads back to it", "statement": "For every default name n, resolve_alias(get_calendar(n).name) is n. (That the name attribute is n itself is refuted: the calendar CMES calls itself CME.)", "quantifier": "every default name", "why_tests_cant": "The names are spread over more than fifty modules and have to stay consistent with the alias table.", "anchors": ["trading_calendars/calendar_utils.py", "trading_calendars/exchange_calendar_cmes.py:CMESExchangeCalendar"]}
{"id": "C56", "title": "get_calendar on the default dispatcher gives the calendar of the exchange", "statement": "After any sequence of get_calendar calls on the default dispatcher, get_calendar of a default name or alias returns an object that was made by a call of the factory of the name it stands for; while the default ranges work (C54) no such call fails.", "quantifier": "every sequence of calls; every default name and alias", "why_tests_cant": "Histories are unbounded.", "anchors": ["trading_calendars/calendar_utils.py:get_calendar", "trading_calendars/calendar_utils.py:TradingCalendarDispatcher.get_calendar"]}
{"id": "C57", "title": "Each exchange is closed exactly on the holidays of its almanac", "statement": "For each bundled exchange but Tel Aviv (C50), every calendar that can be constructed and every day of its range from 1970 to 2200: the day is a session iff it is a Monday to Friday, it is none of the holidays the exchange keeps every year (each given in plain calendar terms: a date, the n-th or last weekday of a month, a distance from Easter, moved off weekends as described, within the years in which it is kept) and it is not listed as a one-off closure. Where Christmas has substitute days, the first two workdays from December 25th on are closed in every year.", "quantifier": "each of the 50 exchanges; every range; every day", "why_tests_cant": "The holidays of every year follow from rules; tests check a few years.", "anchors": ["trading_calendars/exchange_calendar_*.py", "trading_calendars/us_holidays.py", "trading_calendars/common_holidays.py", "trading_calendars/xbkk_holidays.py", "trading_calendars/xtks_holidays.py", "trading_calendars/xkls_holidays.py"]}
{"id": "C58", "title": "Every session keeps the published hours of its exchange", "statement": "For each bundled exchange and every calendar that can be constructed: every session opens one minute after the published local opening time of that day (on the evening before for the exchanges that trade overnight), sessions that do not close early close at the published local closing time and have exactly the published lunch break (or none), and no session opens late. Local times are read on the clocks of the exchange's city, in summer and winter time.", "quantifier": "each of the 51 exchanges; every range; every session", "why_tests_cant": "Every session of every year, on both sides of every change of clocks and of opening hours; tests check a few sessions.", "anchors": ["trading_calendars/exchange_calendar_*.py", "trading_calendars/trading_calendar.py: TradingCalendar.schedule, opens, closes"]}
{"id": "C59", "title": "Sessions close early exactly on the published half days", "statement": "For each bundled exchange and every calendar that can be constructed: each published half day whose closing time lies within the range is a session that closes at its published local time and has no lunch break; early_closes lists exactly these days; every session closes either at a published early time of its day or at the published closing time.", "quantifier": "each of the 51 exchanges; every range; every day", "why_tests_cant": "Half days follow rules for every year; tests check a few years.", "anchors": ["trading_calendars/exchange_calendar_*.py: special_closes, special_closes_adhoc", "trading_calendars/trading_calendar.py: TradingCalendar.early_closes"]}
{"id": "C60", "title": "The sessions of every exchange are its workdays outside published holidays, festivals and closures", "statement": "For each bundled exchange and every calendar that can be constructed, a day from 1970 to 2200 inside the range is a session exactly if it is a workday (Sunday to Thursday in Tel Aviv), no annual holiday of the exchange is kept on it, and no lunar, Islamic, Orthodox or Hebrew feast, equinox or single closure of the exchange falls on it. Feasts that meet a weekend or another holiday are moved as each exchange documents.", "quantifier": "each of the 51 exchanges; every range; every day", "why_tests_cant": "A test compares sessions with a recorded list for a few decades; the claim is an equivalence for every day and range.", "anchors": ["trading_calendars/exchange_calendar_*.py: adhoc_holidays", "trading_calendars/lunisolar_holidays.py", "trading_calendars/common_holidays.py: orthodox_easter, eid_al_fitr_first_day, eid_al_adha_first_day", "trading_calendars/xkls_holidays.py", "trading_calendars/xbkk_holidays.py", "trading_calendars/xtks_holidays.py", "trading_calendars/us_holidays.py"]}
{"id": "C61", "title": "Exchanges with tabulated holidays keep their public holidays", "statement": "In every calendar that can be constructed for XBOM (1997-2020), XKRX (1986-2021), XSES (1986-2020) and XSHG (1999-2025), the main public holidays are not sessions; and XHKG, XIDX (from 2002), XKLS, XPHS (from 2012), XSHG and XTAI have no session on the Chinese New Year. The exceptions in the tables are listed and proved to be sessions.", "quantifier": "every range; every year of the tables", "why_tests_cant": "The tables were entered by hand: only a check of each year against the rule of the holiday finds a missing or misplaced entry.", "anchors": ["trading_calendars/exchange_calendar_xbom.py: precomputed_bse_holidays", "trading_calendars/exchange_calendar_xkrx.py: precomputed_krx_holidays", "trading_calendars/exchange_calendar_xses.py: precomputed_ses_holidays", "trading_calendars/exchange_calendar_xshg.py: precomputed_shanghai_holidays", "trading_calendars/lunisolar_holidays.py: chinese_lunar_new_year_dates"]}
{"id": "C62", "title": "The tabulated lunar feasts are the days of the Chinese calendar", "statement": "From 1960 to 2049 the tabulated dates of the Chinese New Year, Buddha's Birthday, the Dragon Boat, Mid-Autumn and Double Ninth festivals are, in every year but the listed ones, exactly the first day of the first month, the eighth of the fourth, the fifth of the fifth, the fifteenth of the eighth and the ninth of the ninth month of the Chinese calendar, computed from the positions of sun and moon; and the exchanges that keep them (XHKG, XTAI, XSHG, XKRX, XSES, XIDX, XKLS, XPHS) have no session on that day in any calendar that can be constructed. The wrong dates (2034, and the Dragon Boat Festival of 1987) and the years in which an exchange trades on the true date are listed and proved.", "quantifier": "every year from 1960 to 2049; every day; every range", "why_tests_cant": "The tables were computed by a separate program and pasted: only a comparison with the astronomical definition for every year finds a wrong entry.", "anchors": ["trading_calendars/lunisolar_holidays.py", "etc/lunisolar", "trading_calendars/exchange_calendar_xhkg.py", "trading_calendars/exchange_calendar_xtai.py", "trading_calendars/exchange_calendar_xshg.py"]}
{"id": "C63", "title": "Solar feasts fall on the day the sun reaches their longitude", "statement": "From 1960 to 2049 the tabulated Qingming festival is exactly the day (in China) on which the sun reaches longitude 15 degrees; from 1980 to 2049 the formula for the equinox holidays gives the days (in Japan) on which it reaches 0 and 180 degrees, and Tokyo has no session on them from 2000 to 2021. (That Tokyo is closed on every later equinox is refuted.)", "quantifier": "every year; every day; every range", "why_tests_cant": "A test checks recorded dates of some years, not the definition of the feast.", "anchors": ["trading_calendars/lunisolar_holidays.py: qingming_festival_dates", "trading_calendars/xtks_holidays.py", "trading_calendars/exchange_calendar_xtks.py"]}
{"id": "C64", "title": "etc/lunisolar finds the moments at which the sun reaches a longitude", "statement": "For sampled longitudes of a sun that moves forward by less than a bound per sample, the program lists, in order and once per turn, exactly the inner samples nearest to the passages of a longitude (solstices, Qingming), and for the zhongqi the first sample in each twelfth of the circle; every passage between inner samples is found. (Refuted: a passage exactly half way between two samples is found; the comparison described in the docstring of local_cmp is the one made.)", "quantifier": "every number of samples, every motion of the sun and every longitude", "why_tests_cant": "Tests of the program would need recorded ephemerides; the claim holds for every sampled motion.", "anchors": ["etc/lunisolar: local_cmp, minutes_at_phase, qingming_festival"]}
{"id": "C65", "title": "etc/lunisolar finds the new moons", "statement": "For sampled longitudes of a sun and a faster moon, the program lists, in order, exactly the samples nearest to the moments at which the moon passes the sun, provided that the sun does not pass longitude 0 within 0.1 radian of the moon. Without the proviso the claim is refuted: whenever the sun passes 0 degrees while the moon is less than 0.1 radian ahead (or the moon does so before the sun), a false new moon is reported, as for March 20th 2034.", "quantifier": "every number of samples; all motions of sun and moon", "why_tests_cant": "The failure needs an equinox within hours of a new moon, once in many decades.", "anchors": ["etc/lunisolar: calculate_new_moon, load_new_moons, local_cmp"]}
{"id": "C66", "title": "etc/lunisolar leaves out exactly the leap months", "statement": "For new moons on successive days of China and winter solstices in months of which the ends are known, the month starts listed from the first known eleventh month to the last are exactly the regular months: all of a sui of twelve, and all but the first month without zhongqi of a longer one, so that twelve remain. (Refuted when the end of the month of the last solstice is not in the data.)", "quantifier": "all lists of events; any number of years", "why_tests_cant": "Leap months follow a rule over unbounded sequences of events, with rare special cases such as months without zhongqi that are not leap months.", "anchors": ["etc/lunisolar: chinese_month_start"]}
{"id": "C67", "title": "etc/lunisolar gives day d of month m of every Chinese year", "statement": "For events as in C66 that end within the month after the last solstice and sui with twelve regular months, the program gives exactly day d of month m (1 to 10) of the year that begins in each sui, and the Chinese New Year is day 1 of month 1.", "quantifier": "all lists of events; every day and every month up to the tenth", "why_tests_cant": "Any number of years and every day of the year; a test compares a few dates.", "anchors": ["etc/lunisolar: nth_day_of_nth_chinese_month, calculate_new_year, chinese_new_year, china_buddhas_birthday, dragon_boat_festival, mid_autumn_festival, double_ninth_festival"]}
{"id": "C68", "title": "The tables are the output of the program, and its error is a false new moon", "statement": "For every sampling in which the solstices, zhongqi and new moons of 1958 to 2049 fall on the days on which the sun and moon bring them, the program computes the true Chinese dates (C62) for every month from the first to the tenth; with the one false new moon of March 20th 2034 (C65) added, and on the clocks of Asia/Shanghai, it computes from 1960 on exactly the tables in lunisolar_holidays.py, with their errors.", "quantifier": "every sampling with these events; every year from 1960 to 2049", "why_tests_cant": "The tables are pasted output of a program that is not part of the test suite.", "anchors": ["etc/lunisolar", "trading_calendars/lunisolar_holidays.py"]}
{"id": "C69", "title": "The tabulated Islamic feasts follow the Islamic calendar", "statement": "The tables of Eid al-Fitr, Eid al-Adha, Muharram, the birthday of the Prophet and Nuzul Al-Quran used by Istanbul and Kuala Lumpur have, for every Islamic year from 1401 (1980) to 1471 (2049; Nuzul Al-Quran from 1435), exactly one date within two days of the date of the tabular Islamic calendar, and no others, except for the birthdays of 1423 and 1436 (refuted for these). In every calendar that can be constructed XIST is closed for three days from Eid al-Fitr and four from Eid al-Adha, XKLS for two days from Eid al-Fitr, on the other feasts, and on the Monday after a feast on a Sunday; XKAR and XIDX close for at least three to five days beginning near the Eids of the years of their data.", "quantifier": "every Islamic year of the tables; every range", "why_tests_cant": "The tables were typed in from announcements: a missing or misplaced year shows only in a comparison of every year with the calendar.", "anchors": ["trading_calendars/common_holidays.py: eid_al_fitr_first_day, eid_al_adha_first_day", "trading_calendars/xkls_holidays.py: malaysia_nuzul_al_quran, muharram, muhammad_birthday, malaysia_eid_al_fitr_first_day, malaysia_eid_al_adha", "trading_calendars/exchange_calendar_xist.py", "trading_calendars/exchange_calendar_xkls.py", "trading_calendars/exchange_calendar_xkar.py", "trading_calendars/exchange_calendar_xidx.py"]}
{"id": "C70", "title": "The tabulated Buddhist and Hindu feasts follow the moon", "statement": "From 1981 to 2020 there is exactly one full moon in Bangkok between May 7th and June 4th, and the tables have exactly one Makha Bucha within two days of the third full moon before it, one Vesak within two days of it and one Asanha Bucha within two days of the second full moon after it, and no others; XBKK is closed on them. XIDX is closed on the day of the full moon of Vesak from 2003 to 2020. Every tabulated Wesak Day, Thaipusam, Deepavali and Hindu Saka New Year is within two days of the full or new moon of its season, and XKLS or XIDX is closed on it.", "quantifier": "every year of the tables; every range", "why_tests_cant": "Lunar feasts move by weeks from year to year and leap months are irregular; a wrong entry shows only against the moon itself.", "anchors": ["trading_calendars/xbkk_holidays.py: makha_bucha, vesak, asanha_bucha", "trading_calendars/xkls_holidays.py: wesak_day, thaipusam, deepavali", "trading_calendars/exchange_calendar_xidx.py: vesak_day, hindu_saka_new_year", "trading_calendars/exchange_calendar_xbkk.py"]}
{"id": "C71", "title": "Session lookups from several threads", "statement": "In every interleaving of minute_to_session_label calls (direction next) on one calendar, a call raises exactly when the same call alone raises, and else returns the correct session of a minute asked for by this or another thread; the answer is the right one when the call is not interrupted or when all minutes asked for belong to one session. The unguarded claim is refuted: between the comparison and the read of the cached answer another thread can replace it, so a call can return the session of another thread's minute.", "quantifier": "all calendars, any number of threads and calls, all interleavings", "why_tests_cant": "The window is between two reads of one attribute: a test would have to hit it.", "anchors": ["trading_calendars/trading_calendar.py: minute_to_session_label, _minute_to_session_label_cache"]}
{"id": "C72", "title": "Lazy attributes from several threads", "statement": "In every interleaving of reads, deletions and collections, each value read from a lazy attribute was computed by a run of its getter for that object, and a read fails only if such a run failed; with a deterministic getter all threads agree; once a value is stored and nobody is computing another, all reads give it and the getter does not run again. That the getter runs once and all threads see one object is refuted.", "quantifier": "all getters, any number of objects and threads, all interleavings", "why_tests_cant": "Races of first accesses are not reproducible by tests.", "anchors": ["trading_calendars/utils/memoize.py: lazyval"]}
{"id": "C73", "title": "The registry under concurrent calls", "statement": "In every interleaving of dispatcher calls that starts without an alias cycle, the aliases have no cycle whenever no register_calendar_alias call is in progress, and a call that runs uninterrupted acts and answers as in one thread, whatever the others are in the middle of. Refuted for threads: only documented errors are raised (a bare KeyError is possible), a name re-registered with force stays known throughout, two unforced registrations of one name cannot both succeed, a refused cycle is never seen, and a successful alias registration stays.", "quantifier": "all factories, all registries, any number of threads and calls, all interleavings", "why_tests_cant": "Interleavings of single dictionary accesses cannot be enumerated by tests.", "anchors": ["trading_calendars/calendar_utils.py: TradingCalendarDispatcher"]}
{"id": "C74", "title": "Concurrent lookups of calendars", "statement": "While threads only look up (get_calendar, has_calendar, resolve_alias, get_calendar_names), in every interleaving the registrations do not change, get_calendar returns an instance registered before or made by the factory of the canonical name and fails only for unknown names or failing factories, and the other lookups answer as in one thread; once a name has an instance and nobody is building another, everybody is given that instance. That all threads are given one instance is refuted for concurrent first lookups.", "quantifier": "all factories, all registries without cycles, any number of threads, all interleavings", "why_tests_cant": "Whether two first lookups collide depends on the schedule.", "anchors": ["trading_calendars/calendar_utils.py: TradingCalendarDispatcher.get_calendar, resolve_alias, has_calendar, get_calendar_names"]}
{"id": "C75", "title": "check_holidays reports exactly the differences from the key", "statement": "For a calendar with rows in the holiday key, etc/check_holidays.py compares the days that lie within the sessions of the calendar, within the dates of the key and not before the minimal date; it lists, in order, exactly the sessions among them that are in the key or at weekends and exactly the workdays that are neither sessions nor in the key, and says that the calendar matches exactly when on each compared day there is a session iff the day is a workday outside the key. It prints one block per chosen default calendar, in order of names, and stripped codes are unambiguous. Refuted: dates printed as \"holidays in the given key\" need not be in the key (Sunday sessions of Tel Aviv), and a calendar is said to match although no day was compared.", "quantifier": "all calendars, all keys, every minimal date and choice of calendars", "why_tests_cant": "The script has no tests; the claim ranges over all keys and calendars.", "anchors": ["etc/check_holidays.py: check_holidays, _check_range", "trading_calendars/calendar_utils.py: default_calendar_names"]}
{"id": "C76", "title": "What get_calendar tells about a market is what is published about it", "statement": "For every default name or alias of an exchange, after any earlier calls of get_calendar, get_calendar returns a calendar that, except for a few days at the ends of its range, agrees with the published information (almanac of annual holidays, festivals, single closures, timetable with half days and lunch, and the clocks of the city): is_session holds exactly on the published trading days; session_open, session_close, the breaks and the minutes of a session are the published hours on the local clocks; is_open_on_minute(t) is true exactly if t lies in published trading hours; next_open, next_close, previous_open and previous_close give the nearest published openings and closings; minute_to_session_label gives the day of the published session containing the minute. The same holds for every exchange built over any range from 1950 on.", "quantifier": "all default names and aliases of the 52 exchanges, all times of import for which the defaults work, all sequences of earlier get_calendar calls, all ranges from 1950 on, all instants and days in them", "why_tests_cant": "the answers go through registry, construction, time zones, holiday rules and binary searches together; tests sample single minutes of single calendars", "anchors": ["trading_calendars/calendar_utils.py: get_calendar", "trading_calendars/trading_calendar.py: is_open_on_minute, next_open, next_close, previous_open, previous_close, minute_to_session_label, minutes_for_session", "trading_calendars/exchange_calendar_*.py"]}
{"id": "C77", "title": "Minutes and their number are exact although computed in machine numbers", "statement": "all_minutes, next_minute and the other minute queries work on an array computed with 64-bit integers that wrap around and a length obtained by dividing doubles, and minutes_count_for_sessions_in_range adds up doubles. For every schedule whose sessions last whole minutes and end at least a minute before the last 64-bit instant, the array contains exactly the trading minutes of the sessions in increasing order, and the count is the exact integer whatever the order of the additions; in particular for every exchange and every range from 1950 that ends three days before the end of the representable times. Sessions that do not last whole minutes are exact up to 104 days; beyond that a minute can be lost (refuted with an example).", "quantifier": "all well-formed schedules within the 64-bit range, all exchanges and ranges, all orders of summation", "why_tests_cant": "rounding and wrap-around errors depend on single values among 2^64; tests use a few schedules", "anchors": ["trading_calendars/calendar_helpers.py: compute_all_minutes", "trading_calendars/trading_calendar.py: all_minutes, _minutes_per_session, minutes_count_for_sessions_in_range"]}
{"id": "C78", "title": "The version that the package reports identifies the code", "statement": "In a git checkout, trading_calendars.__version__ is the latest tag if the checkout is that tag without changes, and otherwise TAG+N.gHASH[.dirty], for every tag, also one with dashes or a plus sign; what is added is a valid PEP 440 local version, and two checkouts with tags without plus signs and the same version have the same tag, number of commits, state and (unless unchanged at the tag) the same commit. Without tags it is 0+untagged.COUNT.gHASH. In a git archive of a tagged commit it is the first of its tags in character order. Without git, a directory calendars-V gives V. A description that is not of the form git prints gives the version unknown with an error that quotes it. Importing the package always gives an answer as long as git, where it describes the checkout, also prints its date and a count. Refuted with witnesses: an archive of an untagged commit says it is unknown (a branch name with a digit is reported, even as HEAD -> branch); the directory trading_calendars-V gives V (it is always 0+unknown); importing never raises.", "quantifier": "all tags, branch names, hashes, counts, dates, directories and outputs of git", "why_tests_cant": "the version depends on texts that git prints; tests run in one checkout", "anchors": ["trading_calendars/_version.py: get_versions, git_versions_from_keywords, git_pieces_from_vcs, render_pep440, versions_from_parentdir", "trading_calendars/__init__.py: __version__"]}
{"id": "C79", "title": "Errors say what is wrong", "statement": "Every error that the dispatcher raises has the text of its kind with the name inserted, whatever characters the names contain, for a cycle with the names as Python literals joined by arrows, and the text determines the error: its kind and the name, or the list of names. When registering an alias is rejected because of a cycle, the reported list begins and ends with that alias, goes on with the name it was to stand for and then follows registered aliases, each name once; for circular aliases given to the constructor it is the way from the requested name to the first repetition. The ValueError of minute_index_to_session_labels reports the number of minutes outside all sessions, the earliest of them, the next session and, if there is one, the previous session. Refuted: before the first session it names no previous session (it names the last session of the calendar).", "quantifier": "all names, all registries, all well-formed schedules and indexes of minutes", "why_tests_cant": "tests check that an error is raised, on a few names; the reported values depend on the whole registry or index", "anchors": ["trading_calendars/errors.py: ZiplineCalendarError, InvalidCalendarName, CalendarNameCollision, CyclicCalendarAlias", "trading_calendars/calendar_utils.py: resolve_alias, register_calendar_alias", "trading_calendars/trading_calendar.py: minute_index_to_session_labels"]}
{"id": "C80", "title": "The pages of chinese-cal show the months of the Chinese calendar", "statement": "etc/lunisolar chinese-cal M Y prints, for every set of data, a page for the M-th month from the Chinese new year of Y on: the title with the number, the year and the mark (+) exactly if a leap month follows (new moons 29 or 30 days apart), the Gregorian months of its first and last day, the weekdays, every day of the month from its first day to the day before the next month as its day of the Gregorian month in the column of its weekday and the row of its week (one row empty if it begins on a Sunday), each in a place of its own, and nothing else. These are the days that the commands for the feasts compute, and for data as in C67 the months of the Chinese calendar. chinese-cal Y prints the year over four bands of three months, each month whole at its place, and nothing else. A year whose new year is not in the data, month 0 and a month whose end is not in the data are rejected. Numbers above 12 give months of the following year under the year asked for. Refuted: a negative number is rejected (it shows a month counted from the end of the data).", "quantifier": "all samples of longitudes, all lists of new moons, zones, years and numbers of months", "why_tests_cant": "the command has no tests; the layout depends on weekdays, month lengths and leap months", "anchors": ["etc/lunisolar: _render_month, _concat_lines, chinese_cal, chinese_month_start, calculate_new_year, nth_day_of_nth_chinese_month"]}
{"id": "C81", "title": "Instants reach the ephemeris on the scale of terrestrial time", "statement": "utc_to_jd_tt of etc/lunisolar converts every instant on its own, whatever else is in the array: for every whole second within about 4750 years of 1970 the double it returns is finite and differs by less than a tenth of a millisecond from the Julian date of the instant plus the correction of one row of the table, the next row after the instant (the last one after 2026, the first one before 1700). Later instants always get later Julian dates, although the table falls 14 times. The table has one row for the first of each month from February 1973 to January 2018, no day twice and no correction outside 32 to 72 seconds. Refuted: the correction is that of the row in force; between 1700 and 2026 it never is, it is always that of the following row, which costs at most 0.11 seconds from 1973-02-01 to 2018-01-01, at most one second later, and up to 11.29 seconds before.", "quantifier": "all arrays of whole seconds from 2784 BC to AD 6723", "why_tests_cant": "rounding and the choice of the row depend on the single instant; the functions have no tests", "anchors": ["etc/lunisolar: utc_to_jd_tt, utc_to_jd_tt.corrections, T"]}
{"id": "C82", "title": "Smoothing takes rolling means and keeps positions", "statement": "smooth(arr, window) of etc/lunisolar returns, for every array and every window no longer than it, the means of all windows in order (len(arr) - window + 1 of them, none outside the range of the array); smoothed_local_cmp returns exactly the positions where the mean of the window that begins window // 2 before the position is below (above) the means of the windows next to it, which depends on four numbers only; a symmetric valley is found at its bottom by every odd window that fits. ValueError exactly for an empty array or a window below one; a window longer than the array is accepted and gives the sum over the window, not a mean. Refuted: the result has length len(arr) - window // 2 (only for windows 1 and 2).", "quantifier": "all arrays of fractions, all windows", "why_tests_cant": "a rolling mean ranges over all arrays and windows; the functions have no tests", "anchors": ["etc/lunisolar: smooth, smoothed_local_cmp, local_cmp"]}
{"id": "C83", "title": "What the ephemeris commands save is what is loaded", "statement": "After lunar-ecliptic-longitude or solar-ecliptic-longitude on a non-empty range of minutes, into an empty directory, loading the directory gives the longitude of each minute of the range once and in order, together with exactly these minutes, in whatever order the file system lists the files and whatever files without an underscore in their names are beside them. The files are one for each 365 days from the start, named by first and last minute. The new moons are then those of the exact samples; directories for different ranges are a ValueError. An empty range leaves no file and loading is a ValueError; so is any foreign file with an underscore in its name.", "quantifier": "all functions from minutes to longitudes, all ranges, all orders of the directory, all other files", "why_tests_cant": "the order of a directory and the length of the range are not under the control of a test; the commands have no tests", "anchors": ["etc/lunisolar: load_precomputed_data, lunar_ecliptic_longitude, lunar_ecliptic_longitude_block, solar_solar_ecliptic_longitude, solar_ecliptic_longitude_block, load_new_moons"]}
{"id": "C84", "title": "Interrupted and repeated ephemeris runs", "statement": "After any history of runs of the ephemeris commands on a directory, none of them stopped within a block, every value is loaded with its own minute, and the loaded minutes are those that some run covered. If no minute was covered twice and the covered minutes are a range, loading gives that range once and in order; so a range can be computed in parts in any order, and a run stopped between two blocks can be continued. After runs on one range that were stopped anywhere, also within a block, one complete run on that range repairs the directory. A run stopped within a block leaves fewer values than minutes and loading it is no error; with a complete directory for the other body load_new_moons is a ValueError. Refuted: every history keeps values at their minutes (after a run stopped within a block all values of later files are at wrong minutes, silently); complete runs leave each minute once (a second run with a later end leaves the minutes of a block twice).", "quantifier": "all histories of runs with any ranges and any points of interruption, all orders of the directory", "why_tests_cant": "crash points and histories of runs; the commands have no tests", "anchors": ["etc/lunisolar: load_precomputed_data, lunar_ecliptic_longitude, solar_solar_ecliptic_longitude, load_new_moons"]}
{"id": "C85", "title": "Distances, windows and ranges agree", "statement": "For every schedule: the sessions of a range are those of its two parts, at whatever instant it is cut, and so are the minutes of a range and the number of minutes of a range of sessions; the distance from a to d through a session b is the sum of the two distances less one, b counted once; sessions_window from a with the distance to b less one is exactly sessions_in_range(a, b), and so is the window from b backwards; minutes_window from one trading minute, with the number of minutes up to another, is exactly minutes_in_range between them, and so is the window backwards from the other.", "quantifier": "all well-formed schedules, all cuts, all pairs of sessions and of trading minutes", "why_tests_cant": "the methods use different searches and slices; agreement is over all schedules and all pairs", "anchors": ["trading_calendars/trading_calendar.py: sessions_in_range, sessions_window, session_distance, minutes_in_range, minutes_window, minutes_count_for_sessions_in_range"]}
{"id": "C86", "title": "Neighbouring sessions meet, and no session is skipped", "statement": "For every schedule: if next_session_label(l) is l2, then the close of l and the open of l2 are next to each other as trading minutes (next_minute, previous_minute) and for next_open and previous_close. From the open of a session up to its close the next close is its own, after the open the previous open is its own, and minute_to_session_label is its label. Session labels never go back as time goes on; from a trading minute to the next one the session stays the same or is the next session, whose open that minute is. While the market is closed (breaks aside), the label for direction 'next' is that of the session that opens at next_open.", "quantifier": "all well-formed schedules, all instants", "why_tests_cant": "stepping through a calendar with different methods must agree at every session boundary of every schedule", "anchors": ["trading_calendars/trading_calendar.py: next_session_label, next_minute, previous_minute, next_open, previous_open, next_close, previous_close, minute_to_session_label, open_and_close_for_session, is_open_on_minute"]}
{"id": "C87", "title": "Several dispatchers in one program", "statement": "A TradingCalendarDispatcher with a dict of calendars of its own answers every call as it would without the rest of the program, whatever the program does meanwhile: other dispatchers made, used and cleared, and the dicts of factories and aliases that it was made from changed. No method and no construction ever changes these two dicts of the caller. So the functions of the package are not affected by other dispatchers, and a new dispatcher from the default tables knows all default names, also after clear_calendars() of the package. The dict of calendars is not copied: what one dispatcher registers is given by every other made from the same dict (unless the name is an alias there), and clear_calendars of one empties the dict of the caller and of the others. Refuted: dispatchers are independent.", "quantifier": "all programs: every sequence of making and changing dicts, making dispatchers from them and calling their methods, every behaviour of the factories", "why_tests_cant": "interference depends on the whole history and on which objects are shared", "anchors": ["trading_calendars/calendar_utils.py: TradingCalendarDispatcher.__init__, global_calendar_dispatcher, get_calendar, clear_calendars", "tests/test_calendar_dispatcher.py"]}
{"id": "C88", "title": "Constructing and removing all calendars one after the other", "statement": "For every registry without built calendars in which no name occurs twice and each alias names a factory directly, and all factories that do not fail: going through the aliases and then the other names, getting and then deregistering each, every name gives a calendar, every factory is called exactly once, and no name is left. The default tables are such a registry, so etc/bench.py's construct_all_calendars passes and constructs each bundled calendar once; a factory that fails stops it. Refuted: the loop succeeds for every registry without cycles whose names can all be obtained (an alias of an alias that was removed before fails).", "quantifier": "all registries, all factories", "why_tests_cant": "the number of constructions and the state between the calls depend on the order of the names and on aliases", "anchors": ["etc/bench.py: construct_all_calendars", "trading_calendars/calendar_utils.py: get_calendar, deregister_calendar, _default_calendar_factories, _default_calendar_aliases"]}
{"id": "C89", "title": "The recorded schedules of the tests", "statement": "The script etc/make_trading_calendar_test_csv.py writes for every calendar a header and one line per session, in order, with its date, open and close; the tests' loader reads this file back as exactly these sessions, opens and closes, so the file determines them; it reads every form that occurs (a date, an instant with or without offset) as the instant it denotes. For every bundled exchange, on any range for which it can be constructed, the calendar can be constructed again from the first to the last recorded date, has exactly the recorded sessions, and away from the ends the recorded opens and closes. Two runs write the same file exactly if they ask for the same name, however it is capitalised; every default name and alias but us_futures can be asked for as it is or in small letters. Refuted: all default calendars can be recorded (us_futures is refused however it is typed; 24/7 and 24/5 name a directory); the calendar made again has the recorded close on the last day (an early close there becomes a regular one).", "quantifier": "all schedules that fit in 64-bit nanoseconds, all exchanges, zones and ranges, all arguments of the script", "why_tests_cant": "a round trip must hold for every schedule, instant and name", "anchors": ["etc/make_trading_calendar_test_csv.py", "tests/test_trading_calendar.py: ExchangeCalendarTestBase.load_answer_key, setup_class, test_calculated_against_csv"]}
{"id": "C90", "title": "How long sessions last", "statement": "From 1950 on every session of every bundled exchange, on the clocks of its city, lasts exactly the published number of minutes from its first minute to its last one, whether it closes at the regular time or early, whether trading starts the evening before, and also in the weeks in which the clocks are changed: no change of the clocks ever falls between two times of one session. Without a break it lists exactly one minute per published minute; with the lunch break of Hong Kong it lists two more than are traded (that it lists the traded minutes is refuted). No session is longer than MAX_SESSION_HOURS in the tests of its exchange; this is refuted for Sao Paulo since 4 November 2019, which trades for eight hours where the tests allow seven.", "quantifier": "all exchanges, all ranges and sessions from 1950 on, every change of clocks in the tz database", "why_tests_cant": "the tests compare lengths only for recorded years and only with a bound; a change of clocks during a session would be seen only on its day", "anchors": ["trading_calendars/trading_calendar.py: open_and_close_for_session, minutes_for_session, execution_minutes_for_session", "trading_calendars/exchange_calendar_*.py: open_times, close_times, open_offset, special_closes", "tests/test_trading_calendar.py: test_sanity_check_session_lengths"]}
{"id": "C91", "title": "What the errors of a calendar say", "statement": "For every calendar: next_session_label raises its own ValueError exactly at the last session and previous_session_label exactly at the first, each saying which end of the calendar was reached; any other failure is a KeyError for a label that is no session. A window that starts before the first minute fails with a KeyError whose text shows the start, between double quotation marks when printed because of the apostrophe. An unknown direction is named in the error of minute_to_session_label, and direction none refuses a minute at which the exchange is closed. minute_index_to_session_labels says that the index is not ordered, or reports the number of minutes outside the market, the first of them, and the open and close of the session before and after it; all six values can be read back from the text. A calendar with recorded holidays names the first or the last recorded year and the year asked for. Each call otherwise has the same outcome as without the texts.", "quantifier": "all calendars, labels, windows, directions, indexes of 64-bit instants, names and ranges", "why_tests_cant": "the texts depend on the instants, which range over all of 64 bits, and reading them back is a statement about all pairs of reports", "anchors": ["trading_calendars/trading_calendar.py: next_session_label, previous_session_label, minutes_window, minute_to_session_label, minute_index_to_session_labels", "trading_calendars/precomputed_trading_calendar.py: PrecomputedTradingCalendar.__init__"]}
{"id": "C92", "title": "The attribute day of a calendar", "statement": "A calendar has an attribute day exactly if its weekmask has seven days, not all excluded. For every such calendar and every instant t: t + n * day keeps the time of day; its date is the n-th trading day after that of t for positive n, the n-th before for negative n, and the first trading day from t on for n = 0. day.rollforward and day.rollback give the nearest trading day in their direction, and day.is_on_offset tells whether t is on one. Steps add up from every trading day, and from any day as long as all the steps together go the way of the first. date_range with this day gives the sessions of the calendar, and between the first and the last session stepping n days from a session leads to the session n places away, as session_distance says; next_session_label and previous_session_label, where they give a session, give the one a day away. A bundled exchange has the same day whatever its range and zone. Constructing a calendar with any other weekmask is a ValueError. Refuted: a day forward and a day back returns (from a Saturday it is the Friday before).", "quantifier": "all weekmasks and sets of holidays, all instants, all numbers of days, all ranges", "why_tests_cant": "the offset is computed by whole weeks and corrected by the holidays crossed, so that errors show only for particular numbers of days, days of the week and holidays", "anchors": ["trading_calendars/trading_calendar.py: TradingCalendar.day, __init__, next_session_label, previous_session_label, session_distance"]}
{"id": "C93", "title": "A holiday calendar asked again and again", "statement": "For every sequence of calls of holidays(start, end) on one HolidayCalendar object whose rules stay near their month and day: each call lists, in order, exactly the days of its range on which a rule falls, whatever ranges were asked before, so the same dates as a new object, and even the same list, repeated days included, unless a rule gathers several years on one day without a first and a last date; a call with a time zone after a first one without (or the other way round) is a TypeError and changes nothing. This holds for the regular holidays, special opens and special closes of every bundled exchange in the years 3 to 9997. Refuted: a day is listed as often for every rule near its month and day; the dates are the same for all rules (for one leading years away from its month and day, a call for more years makes later answers longer).", "quantifier": "all sequences of calls, ranges and rules", "why_tests_cant": "the object keeps the answer to an earlier call and cuts later answers out of it; an error shows only for particular sequences of ranges", "anchors": ["trading_calendars/trading_calendar.py: scheduled_special_times, TradingCalendar.regular_holidays, special_opens, special_closes", "trading_calendars/exchange_calendar_*.py: regular_holidays, special_opens, special_closes"]}
{"id": "C94", "title": "Versions in other styles and without git", "statement": "In every checkout in which git answers, whichever of the names of its executable is found first and whatever white space surrounds its output, get_versions gives in each of the six styles (pep440, which is also the default, pep440-pre, pep440-post, pep440-old, git-describe, git-describe-long) the version that the style announces, with and without a tag, and refuses other styles with a ValueError. git-describe-long gives back the line that git printed for every tag; without a tag the hash is always cut to seven characters (that the line is given back is refuted there). git-describe-long always and pep440-post for tags without a plus sign tell checkouts apart; the other three styles do not (refuted). When no executable is found, or git cannot be started or fails at one of its first three questions, the version is that in the name of the nearest of three directories, else 0+unknown, whatever the style; when it fails only at the date, get_versions raises an AttributeError.", "quantifier": "all tags, distances, hashes, states and dates of a checkout, all outcomes of the processes, all directories and styles", "why_tests_cant": "the version is cut out of text with dashes, dots and plus signs that tags may contain too; the tests have no checkout in any particular state", "anchors": ["trading_calendars/_version.py: get_versions, run_command, git_pieces_from_vcs, versions_from_parentdir, render, render_pep440_pre, render_pep440_post, render_pep440_old, render_git_describe, render_git_describe_long"]}
{"id": "C95", "title": "Exchanges compared", "statement": "us_futures_calendar.py says that us_futures is a superset of the calendars of the US futures exchanges (CFE, CME, ICE). For CME and ICE, and for New York, this holds: every session of CMES, IEPA or XNYS is a session of us_futures, whatever the ranges and the zones; from 1970 on every minute of such a session, on the clocks of Chicago or New York, is a minute of the session of us_futures of that day, also in the weeks in which the clocks are changed; and whenever one of the three is open, us_futures is open. The sessions of CMES and us_futures open at the same instant and close at the same instant unless the CME closes early, which is five hours earlier. For the CFE (XCBF) it holds on all days but Good Friday and is refuted as stated: on 3 April 2015 XCBF trades and us_futures is closed. XETR and XFRA have the same sessions and openings; XFRA closes when XETR does or earlier, and only earlier on days with a special close (90 minutes on 30 December 2019). After New Year's Day of 2003 the four exchanges of Euronext (XAMS, XBRU, XLIS, XPAR) have the same sessions, which open and close at the same instants although Lisbon keeps another time; before, each kept holidays of its country.", "quantifier": "all ranges and ends, all days, minutes and instants, all years for sessions, from 1970 (Frankfurt 1950, Euronext 2003) on for minutes and moments", "why_tests_cant": "the tests of us_futures look at a few sessions of one calendar; that calendars of two cities contain each other depends on two tables of clock changes and on every holiday rule of both", "anchors": ["trading_calendars/us_futures_calendar.py: QuantopianUSFuturesCalendar", "trading_calendars/exchange_calendar_cmes.py: CMESExchangeCalendar", "trading_calendars/exchange_calendar_iepa.py: IEPAExchangeCalendar", "trading_calendars/exchange_calendar_xnys.py: XNYSExchangeCalendar", "trading_calendars/exchange_calendar_xcbf.py: XCBFExchangeCalendar", "trading_calendars/exchange_calendar_xetr.py: XETRExchangeCalendar", "trading_calendars/exchange_calendar_xfra.py: XFRAExchangeCalendar", "trading_calendars/exchange_calendar_xams.py: XAMSExchangeCalendar", "trading_calendars/exchange_calendar_xbru.py: XBRUExchangeCalendar", "trading_calendars/exchange_calendar_xlis.py: XLISExchangeCalendar", "trading_calendars/exchange_calendar_xpar.py: XPARExchangeCalendar"]}
{"id": "C96", "title": "The version recorded in a distribution is read back", "statement": "When setup.py makes or builds a distribution it replaces _version.py by a file in which the version dictionary stands as JSON. For every such dictionary, whatever its texts contain, the file is pure ASCII, an ordinary printable version stands in it legibly, versioneer finds exactly the recorded dictionary in it, and recording that again gives the same file; setup.py in the unpacked distribution therefore reports the recorded version wherever it is unpacked. The installed package reports it too if the texts have no control character, quote, backslash or three apostrophes in a row; with a quote in the name of a tag it cannot be imported, since the JSON is put into a literal that is not raw. In an archive in which git has filled in the keywords, setup.py and the package report the same version, and so they do in a checkout; but in a directory trading_calendars-V without git setup.py reports V and the package does not know its version.", "quantifier": "all version dictionaries, all texts, directories and answers of git, all texts of _version.py with the three assignments on lines of their own", "why_tests_cant": "versioneer.py is not tested here at all; the texts come from tags, directories and messages of git, and the file passes through json, a regular expression and Python's literals", "anchors": ["versioneer.py: SHORT_VERSION_PY, versions_from_file, write_to_version_file, git_get_keywords, git_versions_from_keywords, get_versions", "setup.cfg: versioneer", "trading_calendars/_version.py: get_versions, get_keywords"]}
{"id": "C97", "title": "The installer of the version file refers to it everywhere, keeps what is there, and does nothing twice", "statement": "For all contents of setup.cfg, __init__.py, MANIFEST.in and .gitattributes, `python versioneer.py setup` keeps each of these files and everything in them, at its start. If MANIFEST.in and .gitattributes consist of complete lines, then afterwards MANIFEST.in includes versioneer.py and the version file and all that it included before, .gitattributes has the line by which git fills in the keywords of archives, and an existing __init__.py sets __version__; a file that says so already is not touched, so that running the command again changes nothing. Every file changed is given to git. Without settings only a section of comments is added to setup.cfg and an error is returned. The check of setup.py passes exactly if the three expressions occur in it and none of the two old ones. Exceptions: if the last line is not complete, what is added is glued to it, a file may be dropped from distributions, and the second run adds more (the third never does); a line about a file whose name merely starts with the name of the version file is mistaken for one about it. In this repository .gitattributes names calendars/_version.py, so that git does not fill in the keywords, and the committed _version.py is that of other settings than setup.cfg has.", "quantifier": "all contents of the files, all names of version files without blanks, all settings", "why_tests_cant": "versioneer.py is not tested here; the files are those of any project, and whether a line counts depends on its words and on where lines end", "anchors": ["versioneer.py: do_setup, do_vcs_install, scan_setup_py, INIT_PY_SNIPPET, SAMPLE_CONFIG, LONG_VERSION_PY", "MANIFEST.in", ".gitattributes", "setup.cfg: versioneer", "trading_calendars/__init__.py", "trading_calendars/_version.py", "setup.py"]}
{"id": "C98", "title": "How many sessions a year has", "statement": "For 29 of the bundled exchanges (among them New York, London, Toronto, Sydney, Johannesburg, Euronext, Frankfurt, the Nordic exchanges and the US futures), the number of sessions that sessions_in_range gives for a calendar year lies between a least and a greatest number, tabulated for each exchange, in every year from the first year of its present holidays (2019 for New York) to 2200, whatever the range and the zone of the calendar that covers the year; both numbers are met, in years that the table names. New York has exactly 252 sessions, but 251 in an ordinary year that starts on a Sunday and 253 in a leap year that starts on a day from Monday to Thursday.", "quantifier": "all years up to 2200, all ranges that contain them, all zones", "why_tests_cant": "the number depends on the weekday of January 1st, on leap years, on Easter and on holidays that coincide or fall on weekends; tests compare a few years with stored answers", "anchors": ["trading_calendars/trading_calendar.py: TradingCalendar.sessions_in_range, __init__", "trading_calendars/exchange_calendar_xnys.py: XNYSExchangeCalendar.regular_holidays, adhoc_holidays", "trading_calendars/exchange_calendar_xlon.py: XLONExchangeCalendar.regular_holidays", "trading_calendars/exchange_calendar_*.py: regular_holidays, adhoc_holidays"]}
{"id": "C99", "title": "How long an exchange stays closed", "statement": "For the same 29 exchanges, next_session_label of a session is at most a tabulated number of days later, from the first year of the present holidays to 2200, whatever the range and the zone of the calendar: 4 days in New York and for the US futures, 5 in London, Toronto, Lima, Mexico City and on Euronext, 6 on the exchanges that also close on Christmas Eve or from Maundy Thursday to Easter Monday. From the session that the table names it is exactly that many days (in Sydney and Johannesburg only in years in which Easter falls late enough to meet a fixed holiday: 2079 and 2038).", "quantifier": "all sessions up to 2200, all ranges that contain them, all zones", "why_tests_cant": "the longest closures join weekends, movable and fixed holidays, and some of them need a date of Easter that no test reaches", "anchors": ["trading_calendars/trading_calendar.py: TradingCalendar.next_session_label, is_session, __init__", "trading_calendars/exchange_calendar_*.py: regular_holidays, adhoc_holidays"]}
{"id": "C100", "title": "The half days and the minutes of a year in New York", "statement": "In a calendar of the New York Stock Exchange, on the clocks of New York, the early_closes of a year from 2013 on are exactly the Friday after the fourth Thursday of November, and 3 July and 24 December when they fall from Monday to Thursday. Each is a session of 210 minutes, and every other session of the year has 390 (minutes_for_session). From 2019 to 2200 minutes_count_for_sessions_in_range from 1 January to 31 December, which need not be sessions, is 390 times the number of sessions (C98) less 180 for each half day: 97740 in 2019, 98310 in 2020. The range of the calendar may be any that contains the year.", "quantifier": "all years from 2013 (2019 to 2200 for the minutes of a year), all their days, all ranges that contain the year", "why_tests_cant": "the half days depend on weekdays of three dates in every year, and the minutes add holidays, half days and changes of the clocks over whole years", "anchors": ["trading_calendars/trading_calendar.py: TradingCalendar.early_closes, minutes_for_session, minutes_count_for_sessions_in_range", "trading_calendars/exchange_calendar_xnys.py: special_closes, special_closes_adhoc", "trading_calendars/us_holidays.py: MonTuesThursBeforeIndependenceDay, WednesdayBeforeIndependenceDayPost2013, USBlackFridayInOrAfter1993, ChristmasEveInOrAfter1993"]}
{"id": "C101", "title": "The minutes of a year", "statement": "For 45 exchanges, minutes_count_for_sessions_in_range from 1 January to 31 December is a tabulated number of minutes for each session of the year less a tabulated number for each half day of the year, from the first year of the present hours on and without a last year. The half days of a year are given by the calendar alone, for example 24 and 31 December or the Fridays before them in London, Sydney, Dublin and Wellington: always two; or these days only from Monday to Friday on Euronext, in Madrid and Buenos Aires: two or none. They are exactly the early_closes of the year, each is a session with the tabulated number of minutes, and every other session of the year has the full number. This needs a calendar that reaches two days beyond the year: if it ends on 31 December that day is not an early close.", "quantifier": "all years from the tabulated one on, all their days, all calendars on the clocks of the exchange that contain the year and two days more", "why_tests_cant": "a test sums one year of one calendar; the claim is about every year, with its weekdays, holidays and changes of clocks", "anchors": ["trading_calendars/trading_calendar.py: TradingCalendar.minutes_count_for_sessions_in_range, minutes_for_session, early_closes, __init__", "trading_calendars/exchange_calendar_*.py: open_times, close_times, special_closes, special_closes_adhoc"]}
