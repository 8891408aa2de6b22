(** Transcribed from trading_calendars/tase_holidays.py by tools/translate.py; dates are day
    numbers. *)
From Coq Require Import ZArith String List Bool.
From Verif.Model Require Import Dates Zone Build Holidays Exchange Hebrew.
Import ListNotations.
Open Scope Z_scope.

(** tase_holidays.py:325 *)
Definition Purim : rule := Holiday 1 1 [Yearly purim] None None None None.
(** tase_holidays.py:326-327 *)
Definition PassoverEve : rule := Holiday 1 1 [Yearly passover; Day (-1)] None None None None.
(** tase_holidays.py:328 *)
Definition Passover : rule := Holiday 1 1 [Yearly passover] None None None None.
(** tase_holidays.py:329-330 *)
Definition Passover2Eve : rule := Holiday 1 1 [Yearly passover; Day 5] None None None None.
(** tase_holidays.py:331-332 *)
Definition Passover2 : rule := Holiday 1 1 [Yearly passover; Day 6] None None None None.
(** tase_holidays.py:333-334 *)
Definition PentecostEve : rule := Holiday 1 1 [Yearly pentecost; Day (-1)] None None None None.
(** tase_holidays.py:335 *)
Definition Pentecost : rule := Holiday 1 1 [Yearly pentecost] None None None None.
(** tase_holidays.py:336 *)
Definition FastDay : rule := Holiday 1 1 [Yearly fast_day] None None None None.
(** tase_holidays.py:337 *)
Definition MemorialDay : rule := Holiday 1 1 [Yearly memorial_day] None None None None.
(** tase_holidays.py:338-339 *)
Definition IndependenceDay : rule :=
  Holiday 1 1 [Yearly memorial_day; Day 1] None None None None.
(** tase_holidays.py:340-341 *)
Definition NewYearsEve : rule := Holiday 1 1 [Yearly new_year; Day (-1)] None None None None.
(** tase_holidays.py:342 *)
Definition NewYear : rule := Holiday 1 1 [Yearly new_year] None None None None.
(** tase_holidays.py:343 *)
Definition NewYear2 : rule := Holiday 1 1 [Yearly new_year; Day 1] None None None None.
(** tase_holidays.py:344-345 *)
Definition YomKippurEve : rule :=
  Holiday 1 1 [Yearly yom_kippur; Day (-1)] None None None None.
(** tase_holidays.py:346 *)
Definition YomKippur : rule := Holiday 1 1 [Yearly yom_kippur] None None None None.
(** tase_holidays.py:347-348 *)
Definition SukkothEve : rule := Holiday 1 1 [Yearly sukkoth; Day (-1)] None None None None.
(** tase_holidays.py:349 *)
Definition Sukkoth : rule := Holiday 1 1 [Yearly sukkoth] None None None None.
(** tase_holidays.py:350-351 *)
Definition SimchatTorahEve : rule :=
  Holiday 1 1 [Yearly simchat_torah; Day (-1)] None None None None.
(** tase_holidays.py:352-353 *)
Definition SimchatTorah : rule := Holiday 1 1 [Yearly simchat_torah] None None None None.
