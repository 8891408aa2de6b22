(** Transcribed from trading_calendars/exchange_calendar_xist.py by tools/translate.py; dates are day
    numbers. *)
From Coq Require Import ZArith String List Bool.
From Verif.Model Require Import Dates Zone Build Holidays Exchange.
From Verif.Exchanges Require common_holidays.
Import ListNotations.
Open Scope Z_scope.

(** exchange_calendar_xist.py:36 *)
Definition NewYearsDay : rule := common_holidays.new_years_day None None None None.
(** exchange_calendar_xist.py:38-42 *)
Definition NationalSovereigntyAndChildrensDay : rule := Holiday 4 23 [] None None None None.
(** exchange_calendar_xist.py:44 *)
Definition LabourDay : rule :=
  common_holidays.european_labour_day (Some (ymd 2009 1 1)) None None None.
(** exchange_calendar_xist.py:46-50 *)
Definition CommemorationOfAttaturkYouthAndSportsDay : rule :=
  Holiday 5 19 [] None None None None.
(** exchange_calendar_xist.py:52 *)
Definition EidAlFitr1 : list Z := common_holidays.eid_al_fitr_first_day.
(** exchange_calendar_xist.py:54 *)
Definition EidAlFitr2 : list Z := shift 1 common_holidays.eid_al_fitr_first_day.
(** exchange_calendar_xist.py:56 *)
Definition EidAlFitr3 : list Z := shift 2 common_holidays.eid_al_fitr_first_day.
(** exchange_calendar_xist.py:58-63 *)
Definition DemocracyAndNationalUnityDay : rule :=
  Holiday 7 15 [] None (Some (ymd 2017 1 1)) None None.
(** exchange_calendar_xist.py:65 *)
Definition EidAlAdha1 : list Z := common_holidays.eid_al_adha_first_day.
(** exchange_calendar_xist.py:67 *)
Definition EidAlAdha2 : list Z := shift 1 common_holidays.eid_al_adha_first_day.
(** exchange_calendar_xist.py:69 *)
Definition EidAlAdha3 : list Z := shift 2 common_holidays.eid_al_adha_first_day.
(** exchange_calendar_xist.py:71 *)
Definition EidAlAdha4 : list Z := shift 3 common_holidays.eid_al_adha_first_day.
(** exchange_calendar_xist.py:73-77 *)
Definition VictoryDay : rule := Holiday 8 30 [] None None None None.
(** exchange_calendar_xist.py:79-83 *)
Definition RepublicDay : rule := Holiday 10 29 [] None None None None.
(** exchange_calendar_xist.py:86 *)
Definition DayBeforeEidAlFitr : list Z := shift (-1) common_holidays.eid_al_fitr_first_day.
(** exchange_calendar_xist.py:88-90 *)
Definition EidAlFitrHalfDay : list Z :=
  filter (fun day => negb (memb (weekday day) WEEKENDS)) DayBeforeEidAlFitr.
(** exchange_calendar_xist.py:92 *)
Definition DayBeforeEidAlAdha : list Z := shift (-1) common_holidays.eid_al_adha_first_day.
(** exchange_calendar_xist.py:94-96 *)
Definition EidAlAdhaHalfDay : list Z :=
  filter (fun day => negb (memb (weekday day) WEEKENDS)) DayBeforeEidAlAdha.
(** exchange_calendar_xist.py:98-103 *)
Definition RepublicDayHalfDay : rule := Holiday 10 28 [] None None None (Some WEEKDAYS).
(** exchange_calendar_xist.py:133-135 *)
Definition open_times : list (option Z * time) := [(None, Time 10 1 0)].
(** exchange_calendar_xist.py:137-139 *)
Definition close_times : list (option Z * time) := [(None, Time 18 0 0)].
(** exchange_calendar_xist.py:141 *)
Definition regular_early_close : time := Time 12 30 0.
(** exchange_calendar_xist.py:144-153 *)
Definition regular_holidays : list rule :=
  [NewYearsDay;
     NationalSovereigntyAndChildrensDay;
     LabourDay;
     CommemorationOfAttaturkYouthAndSportsDay;
     DemocracyAndNationalUnityDay;
     VictoryDay;
     RepublicDay].
(** exchange_calendar_xist.py:156-178 *)
Definition adhoc_holidays : list Z :=
  let misc_adhoc := [ymd 2002 1 4; ymd 2003 2 14; ymd 2003 11 21; ymd 2003 11 24;
     ymd 2003 11 28; ymd 2004 1 23; ymd 2004 12 30; ymd 2004 12 31; ymd 2006 1 13] in
  misc_adhoc ++ EidAlFitr1 ++ EidAlFitr2 ++ EidAlFitr3 ++ EidAlAdha1 ++ EidAlAdha2 ++ EidAlAdha3 ++ EidAlAdha4.
(** exchange_calendar_xist.py:181-187 *)
Definition special_closes : list (time * list rule) :=
  [(regular_early_close, [RepublicDayHalfDay])].
(** exchange_calendar_xist.py:190-208 *)
Definition special_closes_adhoc : list (time * list Z) :=
  let collisions := [ymd 1994 5 19; ymd 2003 11 24] in
  let early_close_days := EidAlFitrHalfDay ++ EidAlAdhaHalfDay in
  let early_close_days := filter (fun day => negb (memb day collisions)) early_close_days in
  [(regular_early_close, early_close_days)].

(** exchange_calendar_xist.py:106-208 [XISTExchangeCalendar]; attributes not set in the class are the defaults of
    trading_calendar.py:203-366. *)
Definition calendar : exchange :=
  Exchange "Europe/Istanbul"%string weekmask_default
    regular_holidays
    adhoc_holidays
    open_times None None close_times
    0 0
    [] [] special_closes special_closes_adhoc.
