(** [TradingCalendarDispatcher] (trading_calendars/calendar_utils.py:148-377)
    and the default registry (62-144, 383-387).

    Calendars are represented by the identity of the instance ([Z]), factories
    by their name ([string], the class in the default registry).  What a call of
    a factory does is decided by an oracle [build], given the factory and the
    list of factory calls made so far (so a factory may give a different
    instance, or fail, each time).  Simplification: a factory does not call the
    dispatcher. *)
From Coq Require Import String ZArith List Bool.
Import ListNotations.
Open Scope string_scope.
Open Scope list_scope.

Definition name := string.
Definition instance := Z.
Definition factory := string.

(** Python dict: the (key, value) pairs in insertion order. *)
Definition dict (V : Type) : Type := list (name * V).

(** [key in d] *)
Definition mem {V : Type} (k : name) (d : dict V) : bool :=
  existsb (fun p => String.eqb (fst p) k) d.

(** [d[key]]: [None] for KeyError. *)
Fixpoint lookup {V : Type} (k : name) (d : dict V) : option V :=
  match d with
  | [] => None
  | (k', v) :: d' => if String.eqb k' k then Some v else lookup k d'
  end.

(** [d[key] = v]: replaces in place, or appends. *)
Fixpoint store {V : Type} (k : name) (v : V) (d : dict V) : dict V :=
  match d with
  | [] => [(k, v)]
  | (k', v') :: d' =>
      if String.eqb k' k then (k', v) :: d' else (k', v') :: store k v d'
  end.

(** [d.pop(key, None)], [del d[key]] *)
Definition pop {V : Type} (k : name) (d : dict V) : dict V :=
  filter (fun p => negb (String.eqb (fst p) k)) d.

(** [d.keys()] *)
Definition keys {V : Type} (d : dict V) : list name := map fst d.

(** calendar_utils.py:165-168: the three dicts, plus the history of factory
    calls (not part of the object; observed to count constructions). *)
Record dispatcher : Type := Dispatcher {
  calendars : dict instance;
  factories : dict factory;
  aliases : dict name;
  calls : list factory
}.

(** errors.py:36-59, and an exception escaping from a factory. *)
Inductive error : Type :=
| InvalidCalendarName (n : name)
| CalendarNameCollision (n : name)
| CyclicCalendarAlias (cycle : list name)
| FactoryError (f : factory)
| Diverges. (* the loop of resolve_alias did not finish within its fuel *)

Inductive outcome (A : Type) : Type :=
| Returns (a : A)
| Raises (e : error).
Arguments Returns {A} a.
Arguments Raises {A} e.

(** calendar_utils.py:328-356, the [while] loop.  [fuel] bounds the number of
    iterations; [Diverges] is proved unreachable. *)
Fixpoint resolve_loop (fuel : nat) (als : dict name) (seen : list name)
  (n : name) : outcome name :=
  match lookup n als with
  | None => Returns n
  | Some n' =>
      match fuel with
      | O => Raises Diverges
      | S fuel' =>
          let seen' := seen ++ [n] in
          if existsb (String.eqb n') seen'
          then Raises (CyclicCalendarAlias (seen' ++ [n']))
          else resolve_loop fuel' als seen' n'
      end
  end.

Definition resolve_alias (d : dispatcher) (n : name) : outcome name :=
  resolve_loop (S (List.length (aliases d))) (aliases d) [] n.

(** calendar_utils.py:221-229 *)
Definition has_calendar (d : dispatcher) (n : name) : bool :=
  mem n (calendars d) || mem n (factories d) || mem n (aliases d).

(** calendar_utils.py:202-219; [list(set(...))], in some order without
    repetition. *)
Definition get_calendar_names (d : dispatcher) : list name :=
  nodup string_dec (keys (calendars d) ++ keys (factories d) ++ keys (aliases d)).

(** calendar_utils.py:358-369 *)
Definition deregister_calendar (d : dispatcher) (n : name) : dispatcher :=
  Dispatcher (pop n (calendars d)) (pop n (factories d)) (pop n (aliases d)) (calls d).

(** calendar_utils.py:371-377 *)
Definition clear_calendars (d : dispatcher) : dispatcher :=
  Dispatcher [] [] [] (calls d).

(** calendar_utils.py:231-257 *)
Definition register_calendar (d : dispatcher) (n : name) (c : instance) (force : bool)
  : outcome unit * dispatcher :=
  let d := if force then deregister_calendar d n else d in
  if has_calendar d n then (Raises (CalendarNameCollision n), d)
  else (Returns tt,
        Dispatcher (store n c (calendars d)) (factories d) (aliases d) (calls d)).

(** calendar_utils.py:259-288 *)
Definition register_calendar_type (d : dispatcher) (n : name) (f : factory) (force : bool)
  : outcome unit * dispatcher :=
  let d := if force then deregister_calendar d n else d in
  if has_calendar d n then (Raises (CalendarNameCollision n), d)
  else (Returns tt,
        Dispatcher (calendars d) (store n f (factories d)) (aliases d) (calls d)).

(** calendar_utils.py:290-326 *)
Definition register_calendar_alias (d : dispatcher) (a real_name : name) (force : bool)
  : outcome unit * dispatcher :=
  let d := if force then deregister_calendar d a else d in
  if has_calendar d a then (Raises (CalendarNameCollision a), d)
  else
    let d' := Dispatcher (calendars d) (factories d) (store a real_name (aliases d)) (calls d) in
    match resolve_alias d' a with
    | Raises (CyclicCalendarAlias cycle) =>
        (Raises (CyclicCalendarAlias cycle),
         Dispatcher (calendars d') (factories d') (pop a (aliases d')) (calls d'))
    | Raises e => (Raises e, d')
    | Returns _ => (Returns tt, d')
    end.

Section Oracle.

(** Result of calling a factory after the given calls: an instance, or an
    exception ([None]). *)
Variable build : factory -> list factory -> option instance.

(** calendar_utils.py:170-200 *)
Definition get_calendar (d : dispatcher) (n : name) : outcome instance * dispatcher :=
  match resolve_alias d n with
  | Raises e => (Raises e, d)
  | Returns canonical_name =>
      match lookup canonical_name (calendars d) with
      | Some c => (Returns c, d)
      | None =>
          match lookup canonical_name (factories d) with
          | None => (Raises (InvalidCalendarName n), d)
          | Some f =>
              let calls' := calls d ++ [f] in
              match build f (calls d) with
              | None => (Raises (FactoryError f),
                         Dispatcher (calendars d) (factories d) (aliases d) calls')
              | Some c =>
                  (Returns c,
                   Dispatcher (store canonical_name c (calendars d))
                              (factories d) (aliases d) calls')
              end
          end
      end
  end.

(** The public calls, for histories. *)
Inductive op : Type :=
| Get (n : name)
| Names
| Has (n : name)
| Resolve (n : name)
| Register (n : name) (c : instance) (force : bool)
| RegisterType (n : name) (f : factory) (force : bool)
| RegisterAlias (a real_name : name) (force : bool)
| Deregister (n : name)
| Clear.

(** State after one call. *)
Definition step (d : dispatcher) (o : op) : dispatcher :=
  match o with
  | Get n => snd (get_calendar d n)
  | Names | Has _ | Resolve _ => d
  | Register n c force => snd (register_calendar d n c force)
  | RegisterType n f force => snd (register_calendar_type d n f force)
  | RegisterAlias a r force => snd (register_calendar_alias d a r force)
  | Deregister n => deregister_calendar d n
  | Clear => clear_calendars d
  end.

(** State after a history of calls. *)
Definition run (d : dispatcher) (os : list op) : dispatcher := fold_left step os d.

End Oracle.

(** calendar_utils.py:62-118 *)
Definition default_calendar_factories : dict factory := [
  ("ASEX", "ASEXExchangeCalendar");
  ("BVMF", "BVMFExchangeCalendar");
  ("CMES", "CMESExchangeCalendar");
  ("IEPA", "IEPAExchangeCalendar");
  ("XAMS", "XAMSExchangeCalendar");
  ("XASX", "XASXExchangeCalendar");
  ("XBKK", "XBKKExchangeCalendar");
  ("XBOG", "XBOGExchangeCalendar");
  ("XBOM", "XBOMExchangeCalendar");
  ("XBRU", "XBRUExchangeCalendar");
  ("XBUD", "XBUDExchangeCalendar");
  ("XBUE", "XBUEExchangeCalendar");
  ("XCBF", "XCBFExchangeCalendar");
  ("XCSE", "XCSEExchangeCalendar");
  ("XDUB", "XDUBExchangeCalendar");
  ("XFRA", "XFRAExchangeCalendar");
  ("XETR", "XETRExchangeCalendar");
  ("XHEL", "XHELExchangeCalendar");
  ("XHKG", "XHKGExchangeCalendar");
  ("XICE", "XICEExchangeCalendar");
  ("XIDX", "XIDXExchangeCalendar");
  ("XIST", "XISTExchangeCalendar");
  ("XJSE", "XJSEExchangeCalendar");
  ("XKAR", "XKARExchangeCalendar");
  ("XKLS", "XKLSExchangeCalendar");
  ("XKRX", "XKRXExchangeCalendar");
  ("XLIM", "XLIMExchangeCalendar");
  ("XLIS", "XLISExchangeCalendar");
  ("XLON", "XLONExchangeCalendar");
  ("XMAD", "XMADExchangeCalendar");
  ("XMEX", "XMEXExchangeCalendar");
  ("XMIL", "XMILExchangeCalendar");
  ("XMOS", "XMOSExchangeCalendar");
  ("XNYS", "XNYSExchangeCalendar");
  ("XNZE", "XNZEExchangeCalendar");
  ("XOSL", "XOSLExchangeCalendar");
  ("XPAR", "XPARExchangeCalendar");
  ("XPHS", "XPHSExchangeCalendar");
  ("XPRA", "XPRAExchangeCalendar");
  ("XSES", "XSESExchangeCalendar");
  ("XSGO", "XSGOExchangeCalendar");
  ("XSHG", "XSHGExchangeCalendar");
  ("XSTO", "XSTOExchangeCalendar");
  ("XSWX", "XSWXExchangeCalendar");
  ("XTAE", "XTAEExchangeCalendar");
  ("XTAI", "XTAIExchangeCalendar");
  ("XTKS", "XTKSExchangeCalendar");
  ("XTSE", "XTSEExchangeCalendar");
  ("XWAR", "XWARExchangeCalendar");
  ("XWBO", "XWBOExchangeCalendar");
  ("us_futures", "QuantopianUSFuturesCalendar");
  ("24/7", "AlwaysOpenCalendar");
  ("24/5", "WeekdayCalendar")
].

(** calendar_utils.py:119-144 *)
Definition default_calendar_aliases : dict name := [
  ("NYSE", "XNYS");
  ("NASDAQ", "XNYS");
  ("BATS", "XNYS");
  ("FWB", "XFRA");
  ("LSE", "XLON");
  ("TSX", "XTSE");
  ("BMF", "BVMF");
  ("CME", "CMES");
  ("CBOT", "CMES");
  ("COMEX", "CMES");
  ("NYMEX", "CMES");
  ("ICE", "IEPA");
  ("ICEUS", "IEPA");
  ("NYFE", "IEPA");
  ("CFE", "XCBF");
  ("JKT", "XIDX");
  ("SIX", "XSWX");
  ("JPX", "XTKS");
  ("ASX", "XASX");
  ("HKEX", "XHKG");
  ("OSE", "XOSL");
  ("BSE", "XBOM");
  ("SSE", "XSHG");
  ("TASE", "XTAE")
].

(** calendar_utils.py:383-387 *)
Definition global_calendar_dispatcher : dispatcher :=
  Dispatcher [] default_calendar_factories default_calendar_aliases [].
