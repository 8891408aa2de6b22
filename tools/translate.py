#!/usr/bin/env python3
"""Transcribe the holiday rules and exchange definitions of trading_calendars
into Rocq.  The sources are parsed as text (ast); nothing is imported or run.

    translate.py /repo/trading_calendars /verif/rocq/theories/Exchanges

A module-level or class-level assignment, or a property made of one return
statement, becomes a definition of the same name; anything the translator does
not understand must have a hand-written replacement in MANUAL (tools/manual.py),
otherwise it stops.
"""
import ast
import os
import re
import sys

from manual import MANUAL, SKIP, FUNCTIONS, COMMENTS

SRC, OUT = sys.argv[1], sys.argv[2]


class Unsupported(Exception):
    pass


PANDAS_RULES = {
    'GoodFriday': 'GoodFriday', 'EasterMonday': 'EasterMonday',
    'USLaborDay': 'pd_USLaborDay', 'USPresidentsDay': 'pd_USPresidentsDay',
    'USThanksgivingDay': 'pd_USThanksgivingDay',
}
PANDAS_OBS = {n: n.capitalize() for n in (
    'sunday_to_monday', 'weekend_to_monday', 'nearest_workday', 'next_monday',
    'next_monday_or_tuesday', 'previous_friday', 'previous_workday')}
LOCAL_OBS = {
    ('us_holidays', 'following_tuesday_every_four_years_observance'):
        'Following_tuesday_every_four_years',
    ('exchange_calendar_xcbf', 'good_friday_unless_christmas_nye_friday'):
        'Good_friday_unless_christmas_nye_friday',
    ('exchange_calendar_xbud', 'four_day_weekend'): 'Four_day_weekend',
    ('exchange_calendar_xbue', 'cultural_diversity_observance'): 'Cultural_diversity',
    ('exchange_calendar_xbue', 'not_2018'): '(Not_in_year 2018)',
    ('exchange_calendar_xsgo', 'not_2010'): '(Not_in_year 2010)',
    ('exchange_calendar_xwar', 'not_2004'): '(Not_in_year 2004)',
    ('exchange_calendar_xbog', 'next_monday_offset'): 'Next_monday_offset',
    ('exchange_calendar_xhkg', 'process_queen_birthday'): 'Process_queen_birthday',
    ('exchange_calendar_xhkg', 'boxing_day_obs'): 'Boxing_day_obs',
    ('exchange_calendar_xmos', 'new_years_eve_observance'):
        '(Weekend_to_monday_except [2008; 2009])',
    ('exchange_calendar_xmos', 'new_years_holiday_observance'):
        '(Weekend_to_monday_except [2016])',
    ('exchange_calendar_xmos', 'orthodox_christmas_observance'):
        '(Weekend_to_monday_except [2012; 2017])',
    ('exchange_calendar_xmos', 'defender_of_fatherland_observance'):
        '(Weekend_to_monday_except [2013; 2014; 2019])',
    ('xbkk_holidays', 'new_years_eve_observance'): '(Weekend_to_monday_except [2003])',
    ('xbkk_holidays', 'new_years_day_observance'): 'Xbkk_new_years_day',
    ('xbkk_holidays', 'songkran_festival_last_day_observance'): 'Songkran_festival_last_day',
    ('exchange_calendar_xphs', 'only_friday'): 'Only_friday',
    ('exchange_calendar_xsgo', 'nearest_monday'): 'Xsgo_nearest_monday',
    ('exchange_calendar_xsgo', 'tuesday_and_wednesday_to_friday'):
        'Tuesday_and_wednesday_to_friday',
    ('exchange_calendar_xtai', 'taiwan_makeup_rule'): 'Taiwan_makeup_rule',
    ('xtks_holidays', 'sunday_to_tuesday'): 'Sunday_to_tuesday',
    ('xtks_holidays', 'sunday_to_wednesday'): 'Sunday_to_wednesday',
}
WEEKDAY_NAMES = ('MONDAY', 'TUESDAY', 'WEDNESDAY', 'THURSDAY', 'FRIDAY', 'SATURDAY', 'SUNDAY')
DATEUTIL_WD = {'MO': 0, 'TU': 1, 'WE': 2, 'TH': 3, 'FR': 4, 'SA': 5, 'SU': 6}
KIND = {'rule': 'rule', 'rules': 'list rule', 'date': 'Z', 'dates': 'list Z', 'time': 'time',
        'times': 'list (option Z * time)', 'int': 'Z', 'str': 'string',
        'specials': 'list (time * list rule)', 'adhocs': 'list (time * list Z)',
        'mask': 'list bool', 'ints': 'list Z', 'calendar': 'list rule'}


def z(n):
    return str(n) if n >= 0 else '(%d)' % n


def date_of(s):
    m = re.fullmatch(r'(\d{4})(?:-(\d{1,2}))?(?:-(\d{1,2}))?', s.strip())
    if not m:
        raise Unsupported('date %r' % s)
    y, mo, d = (int(g) if g else 1 for g in m.groups())
    return 'ymd %d %d %d' % (y, mo, d)


def paren(t):
    return t if re.fullmatch(r'[\w.]+|\[.*\]|\(.*\)', t, re.S) and balanced(t) else '(%s)' % t


def balanced(t):
    if t[0] not in '([':
        return True
    depth = 0
    for i, c in enumerate(t):
        depth += c in '(['
        depth -= c in ')]'
        if depth == 0:
            return i == len(t) - 1
    return False


class Module:
    def __init__(self, name):
        self.name = name
        self.path = os.path.join(SRC, name + '.py')
        self.text = open(self.path).read()
        self.tree = ast.parse(self.text)
        self.env = {}       # python name -> (kind, coq text)
        self.defs = []      # (kind, name, text, first, last)
        self.imports = set()
        self.funcs = {}
        self.cls = None
        self.strings = {}
        self.offsets = {}


MODULES = {}


def load(name):
    if name not in MODULES:
        m = MODULES[name] = Module(name)
        Translator(m).run()
    return MODULES[name]


class Translator:
    def __init__(self, m):
        self.m = m
        self.external = {}   # python name -> (module, name)

    def run(self):
        m = self.m
        for n in m.tree.body:
            if isinstance(n, ast.ImportFrom):
                mod = (n.module or '').replace('trading_calendars.', '')
                for a in n.names:
                    nm = a.asname or a.name
                    if (n.level or (n.module or '').startswith('trading_calendars')) and \
                            os.path.exists(os.path.join(SRC, mod + '.py')) and mod not in (
                                'trading_calendar', 'precomputed_trading_calendar'):
                        self.external[nm] = (mod, a.name)
                    else:
                        self.external[nm] = (None, a.name)
            elif isinstance(n, ast.FunctionDef):
                m.funcs[n.name] = n
        for n in m.tree.body:
            if isinstance(n, ast.FunctionDef) and m.name == 'common_holidays':
                self.function(n)
            elif isinstance(n, ast.Assign):
                self.assign(n.targets[0], n.value, n)
            elif isinstance(n, ast.ClassDef) and (m.name.startswith('exchange') or 'futures' in m.name):
                m.cls = n
                for b in n.body:
                    if isinstance(b, ast.Assign):
                        self.assign(b.targets[0], b.value, b)
                    elif isinstance(b, ast.FunctionDef):
                        self.method(b)
        self.write()

    def add(self, kind, name, text, first, last):
        self.m.env[name] = (kind, name)
        self.m.defs.append((kind, name, text, first, last))

    def handled(self, name):
        return (self.m.name, name) in MANUAL

    def assign(self, target, value, node):
        key = (self.m.name, getattr(target, 'id', '?'))
        if key in SKIP:
            return
        first, last = node.lineno, node.end_lineno
        if key in MANUAL:
            kind, text = MANUAL[key]
            self.add(kind, target.id, text, first, last)
            return
        try:
            kind, text = self.ev(value)
        except Unsupported as e:
            raise Unsupported('%s:%d %s' % (self.m.name, node.lineno, e))
        if kind == 'tz':
            self.m.tz = text
            return
        if kind == 'offset':
            self.m.offsets[target.id] = text
            return
        if kind == 'str':
            self.m.strings[target.id] = value.value
            return
        self.add(kind, target.id, text, first, last)

    def method(self, f):
        key = (self.m.name, f.name)
        if key in SKIP or f.name in ('__init__', 'name', 'execution_time_from_open',
                                     'execution_time_from_close'):
            return
        first = f.lineno
        if key in MANUAL:
            kind, text = MANUAL[key]
            self.add(kind, f.name, text, first, f.end_lineno)
            return
        body = [s for s in f.body if not (isinstance(s, ast.Expr) and isinstance(s.value, ast.Constant))]
        lets, saved = '', dict(self.m.env)
        try:
            for s in body[:-1]:
                if not isinstance(s, ast.Assign):
                    raise Unsupported('statement')
                k, t = self.ev(s.value)
                lets += 'let %s := %s in\n' % (s.targets[0].id, t)
                self.m.env[s.targets[0].id] = (k, s.targets[0].id)
            kind, text = self.ev(body[-1].value)
            text = lets + text
            self.m.env = saved
        except Unsupported as e:
            raise Unsupported('%s:%d %s: %s' % (self.m.name, f.lineno, f.name, e))
        self.add(kind, f.name, text, first, f.end_lineno)

    def function(self, f):
        """A function that returns a Holiday made from its parameters."""
        call = f.body[-1].value
        params = [a.arg for a in f.args.args]
        kw = {k.arg: k.value for k in call.keywords}
        types = {'start_date': 'option Z', 'end_date': 'option Z', 'observance': 'option observance',
                 'days_of_week': 'option (list Z)'}
        arg = lambda p: p if p in params and ast.unparse(kw[p]) == p else 'None'
        dow = arg('days_of_week')
        if 'days_of_week' in kw and 'days_of_week' not in params:
            dow = self.opt(self.weekdays(kw['days_of_week']))
        text = 'Definition %s %s : rule :=\n  Holiday %s %s [%s] %s %s %s %s.' % (
            f.name, ' '.join('(%s : %s)' % (p, types[p]) for p in params),
            self.integer(kw['month']), self.integer(kw['day']),
            self.offset(kw['offset']) if 'offset' in kw else '',
            arg('observance'), arg('start_date'), arg('end_date'), dow)
        assert set(kw) <= {'month', 'day', 'offset'} | set(types)
        self.m.defs.append(('raw', f.name, '(** %s.py:%d-%d *)\n%s' % (
            self.m.name, f.lineno, f.end_lineno, text), 0, 0))

    # -- expressions ---------------------------------------------------------

    def name(self, n):
        if n in self.m.env:
            return self.m.env[n]
        if n in self.external:
            mod, orig = self.external[n]
            if mod:
                other = load(mod)
                if orig in other.env:
                    self.m.imports.add(mod)
                    kind, _ = other.env[orig]
                    return kind, '%s.%s' % (mod, orig)
                if (mod, orig) in LOCAL_OBS:
                    return 'obs', LOCAL_OBS[(mod, orig)]
            else:
                if orig in PANDAS_RULES:
                    return 'rule', PANDAS_RULES[orig]
                if orig in PANDAS_OBS:
                    return 'obs', PANDAS_OBS[orig]
                if orig in WEEKDAY_NAMES:
                    return 'int', orig
                if orig in ('WEEKDAYS', 'WEEKENDS'):
                    return 'ints', orig
        if (self.m.name, n) in LOCAL_OBS:
            return 'obs', LOCAL_OBS[(self.m.name, n)]
        raise Unsupported('name %s' % n)

    def date(self, e):
        if isinstance(e, ast.Name) and self.m.strings.get(e.id):
            return date_of(self.m.strings[e.id])
        if isinstance(e, ast.Constant) and isinstance(e.value, str):
            return date_of(e.value)
        kind, t = self.ev(e)
        if kind != 'date':
            raise Unsupported('date expected: %s' % ast.unparse(e))
        return t

    def offset(self, e):
        if isinstance(e, ast.Name) and e.id in self.m.offsets:
            return self.m.offsets[e.id]
        if isinstance(e, ast.List):
            return '; '.join(self.offset(x) for x in e.elts)
        if isinstance(e, ast.UnaryOp) and isinstance(e.op, ast.USub):
            if isinstance(e.operand, ast.Call) and ast.unparse(e.operand.func) == 'Day':
                return 'Day (%d)' % -e.operand.args[0].value
        if isinstance(e, ast.Call):
            f = ast.unparse(e.func)
            if f == 'Day':
                return 'Day %s' % z(ast.literal_eval(e.args[0]))
            if f == 'Easter':
                return 'Easter'
            if f in ('DateOffset', 'pd.DateOffset'):
                kw = {k.arg: k.value for k in e.keywords}
                if set(kw) == {'weekday'} and isinstance(kw['weekday'], ast.Call):
                    w = kw['weekday']
                    return 'NthWeekday %s %s' % (WEEKDAY_NAMES[DATEUTIL_WD[w.func.id]],
                                                 z(ast.literal_eval(w.args[0])))
                if set(kw) == {'weekday'}:
                    return 'NthWeekday %s 1' % self.integer(kw['weekday'])
                if set(kw) == {'days'}:
                    return 'Day %s' % z(ast.literal_eval(kw['days']))
            if f == 'WeekOfMonth':
                kw = {k.arg: k.value for k in e.keywords}
                return 'WeekOfMonth %s %s' % (self.integer(kw['week']), self.integer(kw['weekday']))
            if f == 'LastWeekOfMonth':
                kw = {k.arg: k.value for k in e.keywords}
                if set(kw) <= {'weekday', 'n'} and ast.literal_eval(kw.get('n', ast.Constant(1))) == 1:
                    return 'LastWeekOfMonth %s' % self.integer(kw['weekday'])
            if f.startswith('_') and self.m.name == 'tase_holidays' and not e.args:
                for c in self.m.tree.body:
                    if isinstance(c, ast.ClassDef) and c.name == f:
                        return 'Yearly %s' % c.body[0].body[0].value.id
        raise Unsupported('offset %s' % ast.unparse(e))

    def integer(self, e):
        if isinstance(e, ast.Name):
            kind, t = self.name(e.id)
            if kind == 'int':
                return t
        v = ast.literal_eval(e)
        assert isinstance(v, int), (self.m.name, e.lineno, v)
        return z(v)

    def opt(self, t):
        return 'None' if t is None else '(Some %s)' % paren(t)

    def weekdays(self, e):
        if isinstance(e, ast.Name):
            return self.name(e.id)[1]
        return '[%s]' % '; '.join(self.integer(x) for x in e.elts)

    def observance(self, e):
        if isinstance(e, ast.Name):
            kind, t = self.name(e.id)
            if kind == 'obs':
                return t
        raise Unsupported('observance %s' % ast.unparse(e))

    def holiday(self, e):
        kw = {k.arg: k.value for k in e.keywords}
        assert not [k for k in kw if k not in ('name', 'year', 'month', 'day', 'offset', 'observance',
                                              'start_date', 'end_date', 'days_of_week')], kw
        if 'year' in kw:
            assert set(kw) <= {'name', 'year', 'month', 'day'}
            return 'Holiday_in_year %s %s %s' % tuple(self.integer(kw[k]) for k in ('year', 'month', 'day'))
        off = self.offset(kw['offset']) if 'offset' in kw else ''
        return 'Holiday %s %s [%s] %s %s %s %s' % (
            self.integer(kw['month']), self.integer(kw['day']), off,
            self.opt(self.observance(kw['observance']) if 'observance' in kw else None),
            self.opt(self.optdate(kw.get('start_date'))), self.opt(self.optdate(kw.get('end_date'))),
            self.opt(self.weekdays(kw['days_of_week']) if 'days_of_week' in kw else None))

    def optdate(self, e):
        return None if e is None else self.date(e)

    def common(self, fname, e):
        """A function of common_holidays.py."""
        f = load('common_holidays').funcs[fname]
        params = [a.arg for a in f.args.args]
        kw = {k.arg: k.value for k in e.keywords}
        for p, a in zip(params, e.args):
            kw[p] = a
        out = []
        for p in params:
            v = kw.get(p)
            if v is None or (isinstance(v, ast.Constant) and v.value is None):
                out.append('None')
            elif p in ('start_date', 'end_date'):
                out.append(self.opt(self.date(v)))
            elif p == 'observance':
                out.append(self.opt(self.observance(v)))
            elif p == 'days_of_week':
                out.append(self.opt(self.weekdays(v)))
        assert set(kw) <= set(params)
        self.m.imports.add('common_holidays')
        return 'common_holidays.%s %s' % (fname, ' '.join(out))

    def datelist(self, elts):
        out = []
        for x in elts:
            out.append(self.date(x))
        return '[%s]' % '; '.join(out)

    def chain(self, args):
        out = []
        for a in args:
            if isinstance(a, ast.List):
                k, t = self.ev(a)
                out.append(t)
                continue
            k, t = self.ev(a)
            if k == 'date' :
                t = '[%s]' % t
            elif k != 'dates':
                raise Unsupported('chain of %s' % k)
            out.append(t)
        return ' ++ '.join(out)

    def ev(self, e):
        if isinstance(e, ast.Constant):
            if isinstance(e.value, str):
                return 'str', '"%s"%%string' % e.value
            if isinstance(e.value, int):
                return 'int', z(e.value)
        if isinstance(e, ast.UnaryOp):
            return 'int', z(ast.literal_eval(e))
        if isinstance(e, ast.Name):
            return self.name(e.id)
        if isinstance(e, ast.Attribute) and isinstance(e.value, ast.Name) and e.value.id == 'self':
            return self.name(e.attr)
        if isinstance(e, ast.BinOp) and isinstance(e.op, (ast.Add, ast.Sub)):
            if isinstance(e.right, ast.Call) and ast.unparse(e.right.func) in ('timedelta', 'pd.Timedelta'):
                k, t = self.ev(e.left)
                kw = {x.arg: x.value for x in e.right.keywords}
                n = ast.literal_eval(kw['days'] if 'days' in kw else e.right.args[0])
                if isinstance(e.op, ast.Sub):
                    n = -n
                if k == 'dates':
                    return 'dates', 'shift %s %s' % (z(n), paren(t))
                if k == 'date':
                    return 'date', '%s + %s' % (t, z(n))
            if isinstance(e.op, ast.Add):
                k1, t1 = self.ev(e.left)
                k2, t2 = self.ev(e.right)
                if k1 == k2 == 'dates':
                    return 'dates', '%s ++ %s' % (t1, t2)
        if isinstance(e, (ast.List, ast.Tuple)):
            return self.sequence(e.elts)
        if isinstance(e, ast.Subscript) and isinstance(e.slice, ast.Compare):
            # X[X.year > n]
            k, t = self.ev(e.value)
            c = e.slice
            if k == 'dates' and ast.unparse(c.left) == ast.unparse(e.value) + '.year' and len(c.ops) == 1:
                n = z(c.comparators[0].value)
                test = {ast.Gt: '%s <? year_of d', ast.GtE: '%s <=? year_of d'}[type(c.ops[0])] % n
                return 'dates', 'filter (fun d => %s) %s' % (test, paren(t))
        if isinstance(e, ast.ListComp) and len(e.generators) == 1:
            return self.comprehension(e)
        if isinstance(e, ast.Call):
            return self.call(e)
        raise Unsupported('expression %s' % ast.unparse(e)[:80])

    def comprehension(self, e):
        g = e.generators[0]
        v = g.target.id if isinstance(g.target, ast.Name) else None
        elt = ast.unparse(e.elt)
        if elt.startswith("'") and '.format(' in elt and ast.unparse(g.iter.func) == 'range':
            m = re.fullmatch(r"'(\d{4})-(\d{2})-\{:02d\}'\.format\(%s\)" % v, elt)
            a, b = (x.value for x in g.iter.args)
            return 'dates', 'map (fun %s => ymd %d %d %s) (year_range %d %d)' % (
                v, int(m.group(1)), int(m.group(2)), v, a, b - 1)
        k, t = self.ev(g.iter)
        if k == 'dates' and elt in (v, 'Timestamp(%s, tz=UTC)' % v, 'pd.Timestamp(str(%s), tz=UTC)' % v):
            for c in g.ifs:
                if ast.unparse(c) == '%s.weekday() not in WEEKENDS' % v:
                    t = 'filter (fun %s => negb (memb (weekday %s) WEEKENDS)) %s' % (v, v, paren(t))
                elif isinstance(c, ast.Compare) and isinstance(c.ops[0], ast.NotIn) and \
                        ast.unparse(c.left) == v:
                    t = 'filter (fun %s => negb (memb %s %s)) %s' % (
                        v, v, paren(self.ev(c.comparators[0])[1]), paren(t))
                else:
                    raise Unsupported('filter %s' % ast.unparse(c))
            return 'dates', t
        raise Unsupported('comprehension %s' % ast.unparse(e)[:80])

    def sequence(self, elts):
        if not elts:
            return 'empty', '[]'
        first = elts[0]
        if all(isinstance(x, ast.Constant) and isinstance(x.value, str) for x in elts):
            return 'dates', self.datelist(elts)
        if isinstance(first, ast.Tuple) and len(first.elts) == 2:
            out, kinds = [], set()
            for x in elts:
                a, b = x.elts
                if isinstance(a, ast.Constant) and a.value is None or self.try_date(a):
                    kinds.add('times')
                    sd = 'None' if isinstance(a, ast.Constant) and a.value is None else 'Some (%s)' % self.date(a)
                    out.append('(%s, %s)' % (sd, self.ev(b)[1]))
                    continue
                k1, t1 = self.ev(a)
                k2, t2 = self.ev(b)
                assert k1 == 'time', (k1, t1)
                if k2 in ('rules', 'calendar'):
                    kinds.add('specials')
                elif k2 in ('dates', 'empty'):
                    kinds.add('adhocs')
                else:
                    raise Unsupported('special %s' % k2)
                out.append('(%s, %s)' % (t1, t2))
            assert len(kinds) == 1, kinds
            return kinds.pop(), '[%s]' % ';\n   '.join(out)
        items = [self.ev(x) for x in elts]
        kinds = {k for k, _ in items}
        if kinds == {'rule'}:
            return 'rules', '[%s]' % ';\n   '.join(t for _, t in items)
        if kinds == {'date'}:
            return 'dates', '[%s]' % '; '.join(t for _, t in items)
        if kinds == {'int'}:
            return 'ints', '[%s]' % '; '.join(t for _, t in items)
        raise Unsupported('sequence of %s' % kinds)

    def try_date(self, e):
        try:
            return self.ev(e)[0] == 'date'
        except Unsupported:
            return False

    def call(self, e):
        f = ast.unparse(e.func)
        if f == 'Holiday':
            return 'rule', self.holiday(e)
        if f in ('pd.Timestamp', 'Timestamp'):
            a = e.args[0]
            if isinstance(a, ast.Constant) and isinstance(a.value, str):
                return 'date', date_of(a.value)
            if len(e.args) == 3:
                return 'date', 'ymd %d %d %d' % tuple(x.value for x in e.args)
        if f == 'time':
            v = [a.value for a in e.args] + [0, 0]
            return 'time', 'Time %d %d %d' % tuple(v[:3])
        if f == 'timezone':
            return 'tz', e.args[0].value
        if f in ('pd.to_datetime', 'DatetimeIndex', 'pd.DatetimeIndex'):
            k, t = self.ev(e.args[0])
            if k in ('dates', 'empty'):
                return 'dates', t
        if f == 'HolidayCalendar':
            a = e.args[0] if e.args else e.keywords[0].value
            k, t = self.ev(a)
            if k in ('rules', 'empty'):
                return 'calendar', t
        if f == 'list' and len(e.args) == 1:
            m = re.fullmatch(r'list\(set\((\w+)\) - set\((\w+)\)\)', ast.unparse(e))
            if m:
                return 'dates', 'set_difference %s %s' % m.groups()
            return self.ev(e.args[0])
        if f in ('chain', 'itertools.chain'):
            return 'dates', self.chain(e.args)
        if f in self.external and self.external[f][0] == 'common_holidays':
            return 'rule', self.common(self.external[f][1], e)
        if f in ('DateOffset', 'pd.DateOffset'):
            return 'offset', self.offset(e)
        if isinstance(e.func, ast.Attribute) and e.func.attr == 'map' and len(e.args) == 1:
            a = e.args[0]
            fn = a.id if isinstance(a, ast.Name) else ast.unparse(a.body.func) if isinstance(
                a, ast.Lambda) and ast.unparse(a.body.args[0]) == a.args.args[0].arg else None
            k, t = self.ev(e.func.value)
            if k == 'dates' and fn in PANDAS_OBS:
                return 'dates', 'map %s %s' % (fn, paren(t))
        if (self.m.name, f) in FUNCTIONS:
            args = [paren(self.ev(a)[1]) for a in e.args]
            return 'dates', ' '.join([FUNCTIONS[(self.m.name, f)]] + args)
        if f in ('pd.date_range', 'date_range'):
            kw = {x.arg: x.value for x in e.keywords}
            a = list(e.args)
            s = kw.get('start', a[0] if a else None)
            t = kw.get('end', a[1] if len(a) > 1 else None)
            fn = 'every_weekday' if 'freq' in kw and kw['freq'].value == 'B' else 'every_day'
            if ('freq' not in kw or kw['freq'].value == 'B') and s is not None and t is not None:
                return 'dates', '%s (%s) (%s)' % (fn, self.date(s), self.date(t))
        raise Unsupported('call %s' % ast.unparse(e)[:80])

    # -- output --------------------------------------------------------------

    def write(self):
        m = self.m
        if not m.defs:
            return
        base = m.name + '.py'
        out = ['(** Transcribed from trading_calendars/%s by tools/translate.py; dates are day\n'
               '    numbers. *)' % base,
               'From Coq Require Import ZArith String List Bool.',
               'From Verif.Model Require Import Dates Zone Build Holidays Exchange%s.'
               % (' Hebrew' if m.name == 'tase_holidays' else '')]
        if m.imports:
            out.append('From Verif.Exchanges Require %s.' % ' '.join(sorted(m.imports)))
        if (m.name, None) in MANUAL:
            out.append(MANUAL[(m.name, None)])
        out += ['Import ListNotations.', 'Open Scope Z_scope.', '']
        for kind, name, text, first, last in m.defs:
            if kind == 'raw':
                out.append(text)
                continue
            if kind == 'empty':
                kind = 'dates'
            lines = '%d' % first if first == last else '%d-%d' % (first, last)
            head = 'Definition %s : %s :=' % (name, KIND[kind])
            body = wrap(text)
            note = COMMENTS.get((m.name, name), '')
            out.append('(** %s:%s%s *)' % (base, lines, note))
            one = '%s %s.' % (head, text)
            if len(one) < 96 and '\n' not in one:
                out.append(one)
            else:
                out.append('%s\n  %s.' % (head, body))
        if m.cls is not None:
            out += ['', self.record()]
        open(os.path.join(OUT, m.name + '.v'), 'w').write('\n'.join(out) + '\n')

    def record(self):
        m = self.m
        have = {n: k for k, n, *_ in m.defs}
        g = lambda n, d: n if n in have else d
        bases = [ast.unparse(b) for b in m.cls.bases]
        adhoc = g('adhoc_holidays', '[]')
        if 'PrecomputedTradingCalendar' in bases:
            adhoc = 'precomputed_holidays'
        brk = lambda n: '(Some %s)' % n if n in have else 'None'
        mask = g('weekmask', 'weekmask_default')
        return ('(** %s:%d-%d [%s]; attributes not set in the class are the defaults of\n'
                '    trading_calendar.py:203-366. *)\n'
                'Definition calendar : exchange :=\n'
                '  Exchange "%s"%%string %s\n    %s\n    %s\n    %s %s %s %s\n    %s %s\n    %s %s %s %s.'
                % (m.name + '.py', m.cls.lineno, m.cls.end_lineno, m.cls.name, m.tz, mask,
                   g('regular_holidays', '[]'), adhoc,
                   'open_times', brk('break_start_times'), brk('break_end_times'), 'close_times',
                   g('open_offset', '0'), g('close_offset', '0'),
                   g('special_opens', '[]'), g('special_opens_adhoc', '[]'),
                   g('special_closes', '[]'), g('special_closes_adhoc', '[]')))


def wrap(text, width=92):
    out = []
    for para in text.split('\n'):
        line = ''
        for w in re.split(r'(?<=;) ', para):
            if len(line) + len(w) + 1 > width and line:
                out.append(line)
                line = '   ' + w
            else:
                line = (line + ' ' + w) if line else w
        out.append(line)
    return '\n  '.join(out)


if __name__ == '__main__':
    names = sorted(f[:-3] for f in os.listdir(SRC)
                   if f.startswith('exchange_calendar_') or f in ('us_futures_calendar.py',))
    ok = True
    for n in names:
        try:
            load(n)
        except Unsupported as e:
            print('UNSUPPORTED', e)
            MODULES.pop(n, None)
            ok = False
    sys.exit(0 if ok else 1)
