#!/usr/bin/env python3
"""Write rocq/theories/Exchanges/zones.v: the UTC offsets of the time zones named by
the exchanges, from the tz database of this machine, in the form in which pytz keeps
them: 32-bit instants (1901-12-13 to 2037), offsets rounded to whole minutes, local
mean time before the first instant.  Abbreviations are left out."""
import glob
import re
import sys
from datetime import datetime, timedelta, timezone
from zoneinfo import ZoneInfo

# Names the tz database keeps for backward compatibility only.
LINKS = {'Asia/Calcutta': 'Asia/Kolkata', 'NZ': 'Pacific/Auckland', 'Asia/Tel_Aviv': 'Asia/Jerusalem'}
EPOCH = datetime(1970, 1, 1, tzinfo=timezone.utc)
FIRST = -2 ** 31
LAST = int((datetime(2037, 12, 31, tzinfo=timezone.utc) - EPOCH).total_seconds())


def offset(zone, t):
    d = (EPOCH + timedelta(seconds=t)).astimezone(zone).utcoffset()
    return int((d.total_seconds() + 30) // 60) * 60


def transitions(zone):
    initial = offset(zone, int((datetime(1800, 1, 1, tzinfo=timezone.utc) - EPOCH).total_seconds()))
    out = []
    current = initial
    if offset(zone, FIRST) != current:
        current = offset(zone, FIRST)
        out.append((FIRST, current))
    t = FIRST
    step = 6 * 3600
    while t < LAST:
        if offset(zone, t + step) != current:
            lo, hi = t, t + step
            while hi - lo > 1:
                mid = (lo + hi) // 2
                if offset(zone, mid) == current:
                    lo = mid
                else:
                    hi = mid
            current = offset(zone, hi)
            out.append((hi, current))
        t += step
    return initial, out


def main(theories):
    names = set()
    for f in glob.glob(theories + '/Exchanges/*.v'):
        names.update(re.findall(r'Exchange "([^"]*)"', open(f).read()))
    lines = []
    for n in sorted(names):
        initial, trs = transitions(ZoneInfo(LINKS.get(n, n)))
        lines.append((n, initial, trs))
    out = ['''(** GENERATED by tools/zones.py: the time zones named by the exchanges, from a tz
    database (data of the library pytz, not of the repository).  Instants and offsets
    in seconds. *)
From Coq Require Import ZArith String List.
From Verif.Model Require Import Zone.
Import ListNotations.
Open Scope Z_scope.

Definition in_seconds (o : Z) (l : list (Z * Z)) : zone :=
  Zone (o * 10 ^ 9) (map (fun p => (fst p * 10 ^ 9, snd p * 10 ^ 9)) l).
''']
    for n, initial, trs in lines:
        ident = n.replace('/', '_')
        body = '; '.join('(%s, %s)' % (t if t >= 0 else '(%d)' % t, o if o >= 0 else '(%d)' % o) for t, o in trs)
        words, cur = [], '    '
        for w in body.split(' '):
            if len(cur) + len(w) > 96:
                words.append(cur.rstrip())
                cur = '     '
            cur += w + ' '
        words.append(cur.rstrip())
        text = '\n'.join(words).strip()
        init = initial if initial >= 0 else '(%d)' % initial
        out.append('Definition %s : zone := in_seconds %s\n    [%s].' % (ident, init, text))
    out.append('\nDefinition zones : list (string * zone) :=\n  [%s].' % ';\n   '.join(
        '("%s"%%string, %s)' % (n, n.replace('/', '_')) for n, _, _ in lines))
    open(theories + '/Exchanges/zones.v', 'w').write('\n'.join(out) + '\n')


main(sys.argv[1])
