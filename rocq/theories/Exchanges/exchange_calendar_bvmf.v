(** Transcribed from trading_calendars/exchange_calendar_bvmf.py by tools/translate.py; dates are day
    numbers. *)
From Coq Require Import ZArith String List Bool.
From Verif.Model Require Import Dates Zone Build Holidays Exchange.
From Verif.Exchanges Require common_holidays.
Import ListNotations.
Open Scope Z_scope.

(** exchange_calendar_bvmf.py:35-39 *)
Definition ConfUniversal : rule := Holiday 1 1 [] None None None None.
(** exchange_calendar_bvmf.py:41-45 *)
Definition AniversarioSaoPaulo : rule := Holiday 1 25 [] None None None None.
(** exchange_calendar_bvmf.py:47-52 *)
Definition CarnavalSegunda : rule := Holiday 1 1 [Easter; Day (-48)] None None None None.
(** exchange_calendar_bvmf.py:54-59 *)
Definition CarnavalTerca : rule := Holiday 1 1 [Easter; Day (-47)] None None None None.
(** exchange_calendar_bvmf.py:61-66 *)
Definition QuartaCinzas : rule := Holiday 1 1 [Easter; Day (-46)] None None None None.
(** exchange_calendar_bvmf.py:68 *)
Definition SextaPaixao : rule := GoodFriday.
(** exchange_calendar_bvmf.py:70 *)
Definition CorpusChristi : rule := common_holidays.corpus_christi None None.
(** exchange_calendar_bvmf.py:72-76 *)
Definition Tiradentes : rule := Holiday 4 21 [] None None None None.
(** exchange_calendar_bvmf.py:78-82 *)
Definition DiaTrabalho : rule := Holiday 5 1 [] None None None None.
(** exchange_calendar_bvmf.py:84-90 *)
Definition Constitucionalista_prepandemic : rule :=
  Holiday 7 9 [] None (Some (ymd 1998 1 1)) (Some (ymd 2020 1 1)) None.
(** exchange_calendar_bvmf.py:91-96 *)
Definition Constitucionalista_pospandemic : rule :=
  Holiday 7 9 [] None (Some (ymd 2021 1 1)) None None.
(** exchange_calendar_bvmf.py:98-102 *)
Definition Independencia : rule := Holiday 9 7 [] None None None None.
(** exchange_calendar_bvmf.py:104-108 *)
Definition Aparecida : rule := Holiday 10 12 [] None None None None.
(** exchange_calendar_bvmf.py:110-114 *)
Definition Finados : rule := Holiday 11 2 [] None None None None.
(** exchange_calendar_bvmf.py:116-120 *)
Definition ProclamacaoRepublica : rule := Holiday 11 15 [] None None None None.
(** exchange_calendar_bvmf.py:122-127 *)
Definition ConscienciaNegra : rule := Holiday 11 20 [] None (Some (ymd 2004 1 1)) None None.
(** exchange_calendar_bvmf.py:129-133 *)
Definition VesperaNatal : rule := Holiday 12 24 [] None None None None.
(** exchange_calendar_bvmf.py:135-139 *)
Definition Natal : rule := Holiday 12 25 [] None None None None.
(** exchange_calendar_bvmf.py:141-146 *)
Definition AnoNovo : rule := Holiday 12 31 [] (Some Previous_friday) None None None.
(** exchange_calendar_bvmf.py:148-153 *)
Definition CopaDoMundo2014 : rule := Holiday_in_year 2014 6 12.
(** exchange_calendar_bvmf.py:191-193 *)
Definition open_times : list (option Z * time) := [(None, Time 10 1 0)].
(** exchange_calendar_bvmf.py:195-198 *)
Definition close_times : list (option Z * time) :=
  [(None, Time 17 0 0);
     (Some (ymd 2019 11 4), Time 18 0 0)].
(** exchange_calendar_bvmf.py:201-202.  The list holds a pandas [Holiday]; numpy reads its
    year, month and day attributes as a date. *)
Definition adhoc_holidays : list Z := flat_map (fun r => rule_dates r 0 0) [CopaDoMundo2014].
(** exchange_calendar_bvmf.py:205-225 *)
Definition regular_holidays : list rule :=
  [ConfUniversal;
     AniversarioSaoPaulo;
     CarnavalSegunda;
     CarnavalTerca;
     SextaPaixao;
     CorpusChristi;
     Tiradentes;
     DiaTrabalho;
     Constitucionalista_prepandemic;
     Constitucionalista_pospandemic;
     Independencia;
     Aparecida;
     Finados;
     ProclamacaoRepublica;
     ConscienciaNegra;
     VesperaNatal;
     Natal;
     AnoNovo].

(** exchange_calendar_bvmf.py:156-225 [BVMFExchangeCalendar]; attributes not set in the class are the defaults of
    trading_calendar.py:203-366. *)
Definition calendar : exchange :=
  Exchange "America/Sao_Paulo"%string weekmask_default
    regular_holidays
    adhoc_holidays
    open_times None None close_times
    0 0
    [] [] [] [].
