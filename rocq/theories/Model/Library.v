(** The calendar classes of the library, by class name: what calling one of them
    does, as the factories of the default dispatcher are called. *)
From Coq Require Import String ZArith List Bool.
From Verif.Model Require Import Base Dates Zone Build Holidays Exchange Dispatcher.
From Verif.Exchanges Require lunisolar_holidays exchange_calendar_asex
  exchange_calendar_bvmf
  exchange_calendar_cmes
  exchange_calendar_iepa
  exchange_calendar_xams
  exchange_calendar_xasx
  exchange_calendar_xbkk
  exchange_calendar_xbog
  exchange_calendar_xbom
  exchange_calendar_xbru
  exchange_calendar_xbud
  exchange_calendar_xbue
  exchange_calendar_xcbf
  exchange_calendar_xcse
  exchange_calendar_xdub
  exchange_calendar_xetr
  exchange_calendar_xfra
  exchange_calendar_xhel
  exchange_calendar_xhkg
  exchange_calendar_xice
  exchange_calendar_xidx
  exchange_calendar_xist
  exchange_calendar_xjse
  exchange_calendar_xkar
  exchange_calendar_xkls
  exchange_calendar_xkrx
  exchange_calendar_xlim
  exchange_calendar_xlis
  exchange_calendar_xlon
  exchange_calendar_xmad
  exchange_calendar_xmex
  exchange_calendar_xmil
  exchange_calendar_xmos
  exchange_calendar_xnys
  exchange_calendar_xnze
  exchange_calendar_xosl
  exchange_calendar_xpar
  exchange_calendar_xphs
  exchange_calendar_xpra
  exchange_calendar_xses
  exchange_calendar_xsgo
  exchange_calendar_xshg
  exchange_calendar_xsto
  exchange_calendar_xswx
  exchange_calendar_xtae
  exchange_calendar_xtai
  exchange_calendar_xtks
  exchange_calendar_xtse
  exchange_calendar_xwar
  exchange_calendar_xwbo
  us_futures_calendar.
Import ListNotations.
Open Scope Z_scope.
Open Scope string_scope.
Open Scope list_scope.

(** trading_calendar.py:43 *)
Definition start_default : Z := ymd 1990 1 1.
(** trading_calendar.py:44-47: a year after the time of import, [Timestamp('today')]
    (which is not midnight). *)
Definition end_default (today : Z) : Z := today + 365 * NANOS_PER_DAY.

(** The kinds of classes, by how [__init__] treats its range: *)
Inductive kind : Type :=
| Plain (E : exchange) (start : Z)     (* trading_calendar.py:100, with this default start *)
| Precomputed (E : exchange)           (* precomputed_trading_calendar.py:13-48 *)
| Lunisolar (E : exchange) (tables : list (list Z))  (* exchange_calendar_xhkg.py:297-326 *)
| Fixed (D : definition).              (* no holidays; trading_calendar.py:100 *)

(** [calendar_name] is the attribute [name]. *)
Record calendar_class : Type := Class { calendar_name : string; class_kind : kind }.

Definition with_default (a : option Z) (d : Z) : Z := match a with Some x => x | None => d end.

(** precomputed_trading_calendar.py:14-25 *)
Definition precomputed_start (E : exchange) : Z :=
  midnight (ymd (list_min (map year_of (ex_adhoc_holidays E))) 1 1).
Definition precomputed_end (E : exchange) : Z :=
  midnight (ymd (list_max (map year_of (ex_adhoc_holidays E))) 12 31).

(** Calling the class; an omitted argument is [None].  [tzdb] is [pytz.timezone]. *)
Definition construct (tzdb : string -> zone) (today : Z) (c : calendar_class) (start stop : option Z)
  : result built :=
  match class_kind c with
  | Plain E first =>
      build_exchange E (tzdb (ex_tz E)) (with_default start (midnight first)) (with_default stop (end_default today))
  | Precomputed E =>
      let start := with_default start (precomputed_start E) in
      let stop := with_default stop (precomputed_end E) in
      build_precomputed (instantiate E (tzdb (ex_tz E)) start stop) (Some start) (Some stop)
  | Lunisolar E tables =>
      build_lunisolar E tables (tzdb (ex_tz E))
        (with_default start (midnight start_default)) (with_default stop (end_default today))
  | Fixed D =>
      build D (with_default start (midnight start_default)) (with_default stop (end_default today))
  end.

(** exchange_calendar_xhkg.py:300-307 *)
Definition xhkg_lunisolar : list (list Z) :=
  [lunisolar_holidays.chinese_buddhas_birthday_dates;
   lunisolar_holidays.chinese_lunar_new_year_dates;
   exchange_calendar_xhkg.day_after_mid_autumn_festival_dates;
   lunisolar_holidays.double_ninth_festival_dates;
   lunisolar_holidays.dragon_boat_festival_dates;
   lunisolar_holidays.qingming_festival_dates].

(** The classes (calendar_utils.py:9-60), with their [name] attributes and the
    signatures of their [__init__]. *)
Definition classes : dict calendar_class :=
  [("ASEXExchangeCalendar", Class "ASEX" (Plain exchange_calendar_asex.calendar start_default));
   ("BVMFExchangeCalendar", Class "BVMF" (Plain exchange_calendar_bvmf.calendar start_default));
   ("CMESExchangeCalendar", Class "CME" (Plain exchange_calendar_cmes.calendar start_default));
   ("IEPAExchangeCalendar", Class "IEPA" (Plain exchange_calendar_iepa.calendar start_default));
   ("XAMSExchangeCalendar", Class "XAMS" (Plain exchange_calendar_xams.calendar start_default));
   ("XASXExchangeCalendar", Class "XASX" (Plain exchange_calendar_xasx.calendar start_default));
   ("XBKKExchangeCalendar", Class "XBKK" (Plain exchange_calendar_xbkk.calendar start_default));
   ("XBOGExchangeCalendar", Class "XBOG" (Plain exchange_calendar_xbog.calendar start_default));
   ("XBOMExchangeCalendar", Class "XBOM" (Precomputed exchange_calendar_xbom.calendar));
   ("XBRUExchangeCalendar", Class "XBRU" (Plain exchange_calendar_xbru.calendar start_default));
   ("XBUDExchangeCalendar", Class "XBUD" (Plain exchange_calendar_xbud.calendar start_default));
   ("XBUEExchangeCalendar", Class "XBUE" (Plain exchange_calendar_xbue.calendar start_default));
   ("XCBFExchangeCalendar", Class "XCBF" (Plain exchange_calendar_xcbf.calendar start_default));
   ("XCSEExchangeCalendar", Class "XCSE" (Plain exchange_calendar_xcse.calendar start_default));
   ("XDUBExchangeCalendar", Class "XDUB" (Plain exchange_calendar_xdub.calendar start_default));
   ("XFRAExchangeCalendar", Class "XFRA" (Plain exchange_calendar_xfra.calendar start_default));
   ("XETRExchangeCalendar", Class "XETR" (Plain exchange_calendar_xetr.calendar start_default));
   ("XHELExchangeCalendar", Class "XHEL" (Plain exchange_calendar_xhel.calendar start_default));
   ("XHKGExchangeCalendar", Class "XHKG" (Lunisolar exchange_calendar_xhkg.calendar xhkg_lunisolar));
   ("XICEExchangeCalendar", Class "XICE" (Plain exchange_calendar_xice.calendar start_default));
   ("XIDXExchangeCalendar", Class "XIDX" (Plain exchange_calendar_xidx.calendar start_default));
   ("XISTExchangeCalendar", Class "XIST" (Plain exchange_calendar_xist.calendar start_default));
   ("XJSEExchangeCalendar", Class "XJSE" (Plain exchange_calendar_xjse.calendar start_default));
   ("XKARExchangeCalendar", Class "XKAR" (Plain exchange_calendar_xkar.calendar start_default));
   ("XKLSExchangeCalendar", Class "XKLS" (Plain exchange_calendar_xkls.calendar start_default));
   ("XKRXExchangeCalendar", Class "XKRX" (Precomputed exchange_calendar_xkrx.calendar));
   ("XLIMExchangeCalendar", Class "XLIM" (Plain exchange_calendar_xlim.calendar start_default));
   ("XLISExchangeCalendar", Class "XLIS" (Plain exchange_calendar_xlis.calendar start_default));
   ("XLONExchangeCalendar", Class "XLON" (Plain exchange_calendar_xlon.calendar start_default));
   ("XMADExchangeCalendar", Class "XMAD" (Plain exchange_calendar_xmad.calendar start_default));
   ("XMEXExchangeCalendar", Class "XMEX" (Plain exchange_calendar_xmex.calendar start_default));
   ("XMILExchangeCalendar", Class "XMIL" (Plain exchange_calendar_xmil.calendar start_default));
   ("XMOSExchangeCalendar", Class "XMOS" (Plain exchange_calendar_xmos.calendar start_default));
   ("XNYSExchangeCalendar", Class "XNYS" (Plain exchange_calendar_xnys.calendar start_default));
   ("XNZEExchangeCalendar", Class "XNZE" (Plain exchange_calendar_xnze.calendar start_default));
   ("XOSLExchangeCalendar", Class "XOSL" (Plain exchange_calendar_xosl.calendar start_default));
   ("XPARExchangeCalendar", Class "XPAR" (Plain exchange_calendar_xpar.calendar start_default));
   ("XPHSExchangeCalendar", Class "XPHS" (Plain exchange_calendar_xphs.calendar start_default));
   ("XPRAExchangeCalendar", Class "XPRA" (Plain exchange_calendar_xpra.calendar start_default));
   ("XSESExchangeCalendar", Class "XSES" (Precomputed exchange_calendar_xses.calendar));
   ("XSGOExchangeCalendar", Class "XSGO" (Plain exchange_calendar_xsgo.calendar start_default));
   ("XSHGExchangeCalendar", Class "XSHG" (Precomputed exchange_calendar_xshg.calendar));
   ("XSTOExchangeCalendar", Class "XSTO" (Plain exchange_calendar_xsto.calendar start_default));
   ("XSWXExchangeCalendar", Class "XSWX" (Plain exchange_calendar_xswx.calendar start_default));
   ("XTAEExchangeCalendar", Class "XTAE" (Plain exchange_calendar_xtae.calendar start_default));
   ("XTAIExchangeCalendar", Class "XTAI" (Plain exchange_calendar_xtai.calendar start_default));
   ("XTKSExchangeCalendar", Class "XTKS" (Plain exchange_calendar_xtks.calendar (ymd 2000 1 1)));
   ("XTSEExchangeCalendar", Class "XTSE" (Plain exchange_calendar_xtse.calendar start_default));
   ("XWARExchangeCalendar", Class "XWAR" (Plain exchange_calendar_xwar.calendar start_default));
   ("XWBOExchangeCalendar", Class "XWBO" (Plain exchange_calendar_xwbo.calendar start_default));
   ("QuantopianUSFuturesCalendar", Class "us_futures" (Plain us_futures_calendar.calendar (ymd 2000 1 1)));
   ("AlwaysOpenCalendar", Class "24/7" (Fixed always_open));
   ("WeekdayCalendar", Class "24/5" (Fixed weekday_calendar))].

(** Calling the default factory registered under [name]
    ([global_calendar_dispatcher._calendar_factories[name](start, stop)]). *)
Definition factory_call (tzdb : string -> zone) (today : Z) (name : string) (start stop : option Z)
  : option (result built) :=
  match lookup name default_calendar_factories with
  | None => None
  | Some f => match lookup f classes with
              | None => None
              | Some c => Some (construct tzdb today c start stop)
              end
  end.

(** What the default factories do when [get_calendar] calls them: an instance is
    identified by the number of calls made before it. *)
Definition library (tzdb : string -> zone) (today : Z) (f : factory) (past : list factory) : option instance :=
  match lookup f classes with
  | None => None
  | Some c =>
      match construct tzdb today c None None with
      | Ok _ => Some (Z.of_nat (List.length past))
      | Raise _ => None
      end
  end.
