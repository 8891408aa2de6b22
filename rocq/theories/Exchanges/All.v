(** The exchanges of the default dispatcher, by name. *)
From Coq Require Import ZArith String List.
From Verif.Model Require Import Exchange.
From Verif.Exchanges Require exchange_calendar_asex
  exchange_calendar_bvmf
  exchange_calendar_cmes
  exchange_calendar_iepa
  exchange_calendar_xams
  exchange_calendar_xasx
  exchange_calendar_xbkk
  exchange_calendar_xbog
  exchange_calendar_xbom
  exchange_calendar_xbru
  exchange_calendar_xbud
  exchange_calendar_xbue
  exchange_calendar_xcbf
  exchange_calendar_xcse
  exchange_calendar_xdub
  exchange_calendar_xfra
  exchange_calendar_xetr
  exchange_calendar_xhel
  exchange_calendar_xhkg
  exchange_calendar_xice
  exchange_calendar_xidx
  exchange_calendar_xist
  exchange_calendar_xjse
  exchange_calendar_xkar
  exchange_calendar_xkls
  exchange_calendar_xkrx
  exchange_calendar_xlim
  exchange_calendar_xlis
  exchange_calendar_xlon
  exchange_calendar_xmad
  exchange_calendar_xmex
  exchange_calendar_xmil
  exchange_calendar_xmos
  exchange_calendar_xnys
  exchange_calendar_xnze
  exchange_calendar_xosl
  exchange_calendar_xpar
  exchange_calendar_xphs
  exchange_calendar_xpra
  exchange_calendar_xses
  exchange_calendar_xsgo
  exchange_calendar_xshg
  exchange_calendar_xsto
  exchange_calendar_xswx
  exchange_calendar_xtae
  exchange_calendar_xtai
  exchange_calendar_xtks
  exchange_calendar_xtse
  exchange_calendar_xwar
  exchange_calendar_xwbo
  us_futures_calendar.
Import ListNotations.
Open Scope string_scope.

(** calendar_utils.py:64-115 [_default_calendar_factories], without '24/7' and '24/5'
    (modelled in Model/Build.v). *)
Definition exchanges : list (string * exchange) :=
  [("ASEX", exchange_calendar_asex.calendar);
   ("BVMF", exchange_calendar_bvmf.calendar);
   ("CMES", exchange_calendar_cmes.calendar);
   ("IEPA", exchange_calendar_iepa.calendar);
   ("XAMS", exchange_calendar_xams.calendar);
   ("XASX", exchange_calendar_xasx.calendar);
   ("XBKK", exchange_calendar_xbkk.calendar);
   ("XBOG", exchange_calendar_xbog.calendar);
   ("XBOM", exchange_calendar_xbom.calendar);
   ("XBRU", exchange_calendar_xbru.calendar);
   ("XBUD", exchange_calendar_xbud.calendar);
   ("XBUE", exchange_calendar_xbue.calendar);
   ("XCBF", exchange_calendar_xcbf.calendar);
   ("XCSE", exchange_calendar_xcse.calendar);
   ("XDUB", exchange_calendar_xdub.calendar);
   ("XFRA", exchange_calendar_xfra.calendar);
   ("XETR", exchange_calendar_xetr.calendar);
   ("XHEL", exchange_calendar_xhel.calendar);
   ("XHKG", exchange_calendar_xhkg.calendar);
   ("XICE", exchange_calendar_xice.calendar);
   ("XIDX", exchange_calendar_xidx.calendar);
   ("XIST", exchange_calendar_xist.calendar);
   ("XJSE", exchange_calendar_xjse.calendar);
   ("XKAR", exchange_calendar_xkar.calendar);
   ("XKLS", exchange_calendar_xkls.calendar);
   ("XKRX", exchange_calendar_xkrx.calendar);
   ("XLIM", exchange_calendar_xlim.calendar);
   ("XLIS", exchange_calendar_xlis.calendar);
   ("XLON", exchange_calendar_xlon.calendar);
   ("XMAD", exchange_calendar_xmad.calendar);
   ("XMEX", exchange_calendar_xmex.calendar);
   ("XMIL", exchange_calendar_xmil.calendar);
   ("XMOS", exchange_calendar_xmos.calendar);
   ("XNYS", exchange_calendar_xnys.calendar);
   ("XNZE", exchange_calendar_xnze.calendar);
   ("XOSL", exchange_calendar_xosl.calendar);
   ("XPAR", exchange_calendar_xpar.calendar);
   ("XPHS", exchange_calendar_xphs.calendar);
   ("XPRA", exchange_calendar_xpra.calendar);
   ("XSES", exchange_calendar_xses.calendar);
   ("XSGO", exchange_calendar_xsgo.calendar);
   ("XSHG", exchange_calendar_xshg.calendar);
   ("XSTO", exchange_calendar_xsto.calendar);
   ("XSWX", exchange_calendar_xswx.calendar);
   ("XTAE", exchange_calendar_xtae.calendar);
   ("XTAI", exchange_calendar_xtai.calendar);
   ("XTKS", exchange_calendar_xtks.calendar);
   ("XTSE", exchange_calendar_xtse.calendar);
   ("XWAR", exchange_calendar_xwar.calendar);
   ("XWBO", exchange_calendar_xwbo.calendar);
   ("us_futures", us_futures_calendar.calendar)].
