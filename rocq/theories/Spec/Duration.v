(** How long sessions last: the published hours as a number of minutes, and the
    longest session the tests of the repository allow. *)
From Coq Require Import ZArith String List.
From Verif.Spec Require Import Hours.
Import ListNotations.
Open Scope Z_scope.

(** Minutes since midnight. *)
Definition clock_minutes (c : clock) : Z := 60 * fst c + snd c.

(** Minutes from opening time [o], on the evening before if trading starts then, to
    closing time [c]. *)
Definition published_minutes (H : hours) (o c : clock) : Z :=
  1440 * nights H + clock_minutes c - clock_minutes o.

Definition lunch_minutes (from till : clock) : Z := clock_minutes till - clock_minutes from.

(** MAX_SESSION_HOURS of /repo/tests/test_*_calendar.py, in thousandths of an hour. *)
Definition longest_session : list (string * Z) :=
  [("ASEX", 7330); ("BVMF", 7000); ("CMES", 24000); ("IEPA", 22000); ("XAMS", 8500);
   ("XASX", 6000); ("XBKK", 6500); ("XBOG", 6500); ("XBOM", 6250); ("XBRU", 8500);
   ("XBUD", 8000); ("XBUE", 6000); ("XCBF", 8000); ("XCSE", 8000); ("XDUB", 8467);
   ("XETR", 8500); ("XFRA", 8500); ("XHEL", 8500); ("XHKG", 6500); ("XICE", 6000);
   ("XIDX", 6833); ("XIST", 8000); ("XJSE", 8000); ("XKAR", 5967); ("XKLS", 8000);
   ("XKRX", 6500); ("XLIM", 7000); ("XLIS", 8500); ("XLON", 8500); ("XMAD", 8500);
   ("XMEX", 6500); ("XMIL", 8500); ("XMOS", 8750); ("XNYS", 6500); ("XNZE", 6750);
   ("XOSL", 7500); ("XPAR", 8500); ("XPHS", 6000); ("XPRA", 7340); ("XSES", 8000);
   ("XSGO", 7500); ("XSHG", 5500); ("XSTO", 8500); ("XSWX", 8500); ("XTAE", 7250);
   ("XTAI", 4500); ("XTKS", 6000); ("XTSE", 6500); ("XWAR", 8000); ("XWBO", 8500)]%string.
