#!/usr/bin/env python3
"""Compares the model of each exchange with the schedules recorded in the test
suite of the repository (/repo/tests/resources/*.csv).

The modelled factories are extracted to OCaml, run over each recorded year and
compared with the recorded labels, opens and closes.  (Each range ends a few days
into the next year: a special close on the last day of a range is lost, C27.)  This is a test of the
model, not a proof; it is not part of the build.

usage: tools/compare_csv.py SCRATCH     (in a built checkout; needs ocamlfind and zarith)
"""
import csv, datetime, os, subprocess, sys
HERE = os.path.dirname(os.path.abspath(__file__))
THEORIES = os.path.join(HERE, '..', 'rocq', 'theories')
RES = '/repo/tests/resources'
NAMES = {'24-5': '24/5', '24-7': '24/7'}

EXTRACT = '''From Coq Require Import String ZArith List Bool Extraction ExtrOcamlBasic ExtrOcamlZBigInt ExtrOcamlNativeString ExtrOcamlNatInt.
From Verif.Model Require Import Base Queries Build Zone Exchange Library.
From Verif.Exchanges Require Import zones.
Import ListNotations.
Open Scope Z_scope.
Definition tzdb (n : string) : zone :=
  match List.find (fun p => String.eqb (fst p) n) zones with Some p => snd p | None => Zone 0 [] end.
Definition second := 1000000000.
Definition table (name : string) (start stop : Z) : option (list (Z * Z * Z)) :=
  match factory_call tzdb 0 name (Some (start * second)) (Some (stop * second)) with
  | Some (Ok r) =>
      let c := cal r in
      Some (map (fun x => (fst (fst x) / second, snd (fst x) / second, snd x / second))
              (combine (combine (sessions c) (opens c)) (closes c)))
  | _ => None
  end.
Extraction "model.ml" table.
'''
MAIN = '''let rec lines ic acc = match input_line ic with l -> lines ic (l :: acc) | exception End_of_file -> List.rev acc
let z = Big_int_Z.big_int_of_string
let s = Big_int_Z.string_of_big_int
let () = List.iter (fun l -> match String.split_on_char ' ' l with
  | [n; a; b] -> (match Model.table n (z a) (z b) with
      | None -> Printf.printf "none %s %s\\n%!" n a
      | Some rows -> List.iter (fun ((l, o), c) -> Printf.printf "row %s %s %s %s\\n" n (s l) (s o) (s c)) rows; flush stdout)
  | _ -> ()) (lines stdin [])
'''

def instant(text):
    t = datetime.datetime.fromisoformat(text)
    return int(t.replace(tzinfo=datetime.timezone.utc).timestamp())

def date(t):
    return str(datetime.datetime.utcfromtimestamp(t))

def main():
    scratch = sys.argv[1]
    os.makedirs(scratch, exist_ok=True)
    run = os.path.join(scratch, 'run')
    if not os.path.exists(run):
        open(os.path.join(scratch, 'extract.v'), 'w').write(EXTRACT)
        open(os.path.join(scratch, 'main.ml'), 'w').write(MAIN)
        subprocess.check_call(['coqc', '-Q', THEORIES, 'Verif', 'extract.v'], cwd=scratch)
        os.remove(os.path.join(scratch, 'model.mli'))
        subprocess.check_call('ulimit -s unlimited; ocamlfind ocamlopt -inline 0 -package zarith -linkpkg model.ml main.ml -o run',
                              shell=True, cwd=scratch)
    for f in sorted(os.listdir(RES)):
        base = f[:-4]
        name = NAMES.get(base, base.upper())
        rows = [r for r in csv.reader(open(os.path.join(RES, f)))][1:]
        rows = {instant(r[0][:10]): (instant(r[1][:19]), instant(r[2][:19])) for r in rows if r}
        first, last = min(rows), max(rows)
        asks = ''
        for y in range(int(date(first)[:4]), int(date(last)[:4]) + 1):
            asks += '%s %d %d\n' % (name, max(first, instant('%d-01-01' % y)), min(last, instant('%d-01-05' % (y + 1))))
        r = subprocess.run('ulimit -s unlimited; ' + run, shell=True, input=asks, capture_output=True, text=True)
        model, none = {}, []
        for l in r.stdout.split('\n'):
            w = l.split(' ')
            if w[0] == 'row': model[int(w[2])] = (int(w[3]), int(w[4]))
            if w[0] == 'none': none.append(date(int(w[2])))
        bad = [(l, rows.get(l), model.get(l)) for l in sorted(set(rows) | set(model)) if rows.get(l) != model.get(l)]
        print(base, date(first)[:10], date(last)[:10], 'recorded', len(rows), 'model', len(model), 'differ', len(bad), 'failed', none, r.stderr[-200:], flush=True)
        for l, a, b in bad[:8]:
            print('   ', date(l)[:10], 'recorded', a and tuple(map(date, a)), 'model', b and tuple(map(date, b)))

if __name__ == '__main__':
    main()
