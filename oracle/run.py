"""Evaluates the project's integration tests on the model.
Usage: python3 run.py [workdir]   (after `make` in /verif/rocq)
extract.py reads the tests /repo/cmd/*/*_test.go; each step is the file handed
to the command and the output the test expects.  Two ways of playing them:
  ideal     - the current schema is what the ideal server of the model shows after
              the statements of the earlier steps (MySQL, PostgreSQL, SQL Server)
  previous  - the current schema is the file of the earlier step (all four)"""
import json, os, re, subprocess, sys
from extract import run
here = os.path.dirname(os.path.abspath(__file__))
work = sys.argv[1] if len(sys.argv) > 1 else '/tmp/oracle'
os.makedirs(work, exist_ok=True)
coqc = ['timeout', '3000', 'coqc', '-Q', os.path.join(here, '../rocq/theories'), 'Verif', '-R', work, 'Oracle']
open(work + '/Drive.v', 'w').write(open(here + '/drive.txt').read())
subprocess.run(coqc + [work + '/Drive.v'], check=True)
q = lambda s: '"' + s.replace('"', '""') + '"'
ways = [('ideal', 'mysqldef', 'my_test'), ('ideal', 'psqldef', 'pg_test'), ('ideal', 'mssqldef', 'ms_test'),
        ('previous', 'mysqldef', 'test2 Mysql 0 []'), ('previous', 'psqldef', 'test2 Postgres 0 []'),
        ('previous', 'mssqldef', 'test2 Mssql 0 []'), ('previous', 'sqlite3def', 'test2 SQLite3 0 []')]
for way, cmd, f in ways:
    o = ('From Coq Require Import String List.\nFrom Oracle Require Import Drive.\nFrom Verif Require Import Ast.\nImport ListNotations.\n'
         'Local Open Scope string_scope.\nSet Printing Width 100000.\n')
    names = []
    skipped = []
    for n, steps, bad in run('/repo/cmd/%s/%s_test.go' % (cmd, cmd)):
        if not any(s[0] == 'apply' for s in steps):
            skipped.append(n)
            continue
        names.append(n)
        l = '; '.join('None' if s[0] == 'reset' else 'Some (%s, %s)' % (q(s[1]), 'None' if s[2] is None else 'Some ' + q(s[2])) for s in steps)
        o += 'Definition %s := Eval vm_compute in %s [%s].\nPrint %s.\n' % (n, f, l, n)
    file = '%s/Run_%s_%s.v' % (work, way, cmd)
    open(file, 'w').write(o)
    r = subprocess.run(coqc + [file], capture_output=True, text=True)
    out = r.stdout + r.stderr
    open(file[:-2] + '.out', 'w').write(out)
    bad = [n for n in names if not re.search(r'(?m)^%s = \[\]' % n, out)]
    print(way, cmd, 'tests', len(names), 'agree', len(names) - len(bad), 'differ', bad, 'not run', skipped)
