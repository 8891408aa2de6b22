(** How long an exchange stays closed (C99), as a table. *)
From Coq Require Import ZArith String List.
From Verif.Spec Require Import Civil.
Import ListNotations.
Open Scope Z_scope.

(** An exchange; the first year of its present holidays; the greatest number of days
    from a session to the next one; a session after which it is that long. *)
Definition longest_gap : list (string * Z * Z * (Z * Z * Z)) :=
  [("ASEX", 2021, 6, (2025, 12, 23));
   ("CMES", 2019, 4, (2019, 4, 18));
   ("IEPA", 2019, 4, (2019, 4, 18));
   ("XAMS", 2002, 5, (2002, 3, 28));
   ("XASX", 2012, 6, (2079, 4, 20));
   ("XBRU", 2002, 5, (2002, 3, 28));
   ("XCSE", 2009, 6, (2009, 4, 8));
   ("XDUB", 2019, 5, (2019, 4, 18));
   ("XFRA", 2018, 6, (2018, 12, 21));
   ("XETR", 2018, 6, (2018, 12, 21));
   ("XHEL", 1970, 6, (1973, 12, 21));
   ("XICE", 1970, 6, (1970, 3, 25));
   ("XJSE", 2020, 6, (2038, 4, 22));
   ("XLIM", 2019, 5, (2019, 4, 17));
   ("XLIS", 2003, 5, (2003, 4, 17));
   ("XLON", 2021, 5, (2021, 4, 1));
   ("XMAD", 2011, 5, (2011, 4, 21));
   ("XMEX", 2011, 5, (2011, 4, 20));
   ("XMIL", 1970, 6, (1973, 12, 21));
   ("XNYS", 2019, 4, (2019, 1, 18));
   ("XOSL", 1970, 6, (1970, 3, 25));
   ("XPAR", 2002, 5, (2002, 3, 28));
   ("XPRA", 2013, 6, (2014, 12, 23));
   ("XSTO", 2005, 6, (2007, 12, 21));
   ("XSWX", 1970, 6, (1973, 12, 21));
   ("XTSE", 2008, 5, (2008, 12, 24));
   ("XWAR", 2019, 6, (2025, 12, 23));
   ("XWBO", 2019, 6, (2025, 12, 23));
   ("us_futures", 1970, 4, (1970, 3, 26))]%string.
