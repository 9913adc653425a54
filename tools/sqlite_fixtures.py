#!/usr/bin/env python3
"""Generates rocq/theories/Check/SqliteFixtures.v: random histories of the statements
of /repo/pkg/sqlite, run on a real SQLite (the schema.sql and query.sql of the
repository), with what they returned; the generated Examples check that the model
(Model/Sqlite.v) allows exactly that.  Needs Python with the sqlite3 module; the
generated file is committed, the build does not run this."""
import random, re, sqlite3, sys
REPO = '/repo/pkg/sqlite/'
rnd = random.Random(20261118)

def queries(pkg):
    q = {}
    for part in open(REPO + pkg + '/query.sql').read().split('-- name: ')[1:]:
        head, body = part.split('\n', 1)
        q[head.split()[0]] = re.sub(r'^--.*$', '', body, flags=re.M).strip().rstrip(';')
    return q
def connect(pkg, fk):
    db = sqlite3.connect(':memory:', isolation_level=None)
    db.execute('pragma foreign_keys = ' + ('on' if fk else 'off'))
    sql = open(REPO + pkg + '/schema.sql').read()
    sql = sql.replace('CREATE TABLE sqlite_sequence(name,seq);', '')
    db.executescript(sql)
    return db

def B(s): return '(bs "%s")' % s
def Z(n): return '(%d)%%Z' % n
def OB(s): return 'None' if s is None else '(Some %s)' % B(s)
def OZ(n): return 'None' if n is None else '(Some %s)' % Z(n)
def L(xs): return '[' + '; '.join(xs) + ']'
def word(ws): return rnd.choice(ws)
def maybe(f): return None if rnd.random() < 0.4 else f()
out = []

def case(name, stmt): out.append('Example %s : %s.\nProof. check. Qed.' % (name, stmt))

def run(db, sql, args):
    """rows, or 'constraint'"""
    try:
        return db.execute(sql, args).fetchall()
    except sqlite3.IntegrityError:
        return 'constraint'

# fetcher_cache_v2
def fetcher(i):
    q = queries('fetcher_cache_v2'); db = connect('fetcher_cache_v2', False); h = []
    D, K = ['a', 'b', ''], ['k', 'K', 'k ', '']
    for _ in range(rnd.randrange(3, 12)):
        r = (word(D), word(K), word(['v', 'w', '1']), rnd.randrange(-3, 9))
        assert run(db, q['UpsertCache'], r) == []
        h.append('(FC %s %s %s %s, true)' % (B(r[0]), B(r[1]), B(r[2]), Z(r[3])))
    checks = []
    for d in D:
        for k in K:
            rows = run(db, q['QueryCache'], (d, k))
            checks.append('fc_QueryCache %s %s t %s' % (B(d), B(k), L('(%s, %s)' % (B(v), Z(t)) for v, t in rows)))
    case('fetcher_%d' % i, 'let t := fc_run %s in\n  %s' % (L(h), ' /\\\n  '.join(checks)))

# eval_cache_v5
def evalc(i):
    q = queries('eval_cache_v5'); db = connect('eval_cache_v5', False); h = []
    P, N = [1, 2, -1], ['x', 'y', 'X', '', None]
    for _ in range(rnd.randrange(4, 14)):
        p, n, ty, v = rnd.choice(P), rnd.choice(N), rnd.randrange(0, 4), maybe(lambda: word(['v', '', '7']))
        if rnd.random() < 0.5:
            assert run(db, q['InsertAttribute'], (p, n, ty, v)) == []
            h.append('(EInsert %s %s %s %s, true)' % (Z(p), OB(n), Z(ty), OB(v)))
        else:
            c = maybe(lambda: word(['c', 'd']))
            assert run(db, q['InsertAttributeWithContext'], (p, n, ty, v, c)) == []
            h.append('(EInsertC %s %s %s %s %s, true)' % (Z(p), OB(n), Z(ty), OB(v), OB(c)))
    checks = []
    for p in P:
        rows = run(db, q['QueryAttributes'], (p,))
        checks.append('ec_QueryAttributes %s t %s' % (Z(p), L(OB(n) for n, in rows)))
        for n in N:
            rows = run(db, q['QueryAttribute'], (p, n))
            checks.append('ec_QueryAttribute %s %s t %s' % (Z(p), OB(n), '(Err ErrNoRows)' if not rows else '(Ok (%s, %s, %s))' % (Z(rows[0][0]), OB(rows[0][1]), OB(rows[0][2]))))
    case('eval_%d' % i, 'let t := ec_run %s in\n  %s' % (L(h), ' /\\\n  '.join(checks)))

# binary_cache_v6
def info():
    t = lambda: maybe(lambda: word(['a', 'b', '']))
    z = lambda: maybe(lambda: rnd.randrange(-2, 5))
    return [t(), t(), t(), t(), z(), t(), z(), t(), t(), t(), t()]
def NI(r):
    return '(NI %s)' % ' '.join(OZ(x) if k in (4, 6) else OB(x) for k, x in enumerate(r))
def binary(i, fk):
    q = queries('binary_cache_v6'); db = connect('binary_cache_v6', fk); h = []; seq = 0; res = []
    U, H, C = ['http://u', 'http://v', ''], ['h1', 'h2', 'H1'], [1, 2, 3]
    for _ in range(rnd.randrange(6, 18)):
        k = rnd.choice(['cache', 'cache', 'nar', 'nar', 'missing', 'real', 'missingreal', 'setpurge', 'purge'])
        ts = rnd.randrange(0, 9)
        if k == 'cache':
            a = (word(U), ts, word(['/nix/store', '/s']), rnd.randrange(0, 2), rnd.randrange(0, 50))
            id, = run(db, q['InsertCache'], a)[0]; gap = 0
            if id > seq: gap = id - seq - 1; seq = id
            h.append('BInsertCache %s %s %s %s %s %d' % (B(a[0]), Z(a[1]), B(a[2]), Z(a[3]), Z(a[4]), gap)); res.append('Ok %s' % Z(id)); continue
        if k == 'nar':
            a = [rnd.choice(C), word(H)] + info() + [ts]
            r = run(db, q['InsertNar'], a); h.append('BInsertNar %s %s %s %s' % (Z(a[0]), B(a[1]), NI(a[2:13]), Z(ts)))
        elif k == 'missing':
            a = [rnd.choice(C), word(H), ts]
            r = run(db, q['InsertMissingNAR'], a); h.append('BInsertMissing %s %s %s' % (Z(a[0]), B(a[1]), Z(ts)))
        elif k == 'real':
            a = [rnd.choice(C), word(['o', 'p']), maybe(lambda: word(['{}', '']).encode()), ts]
            r = run(db, q['InsertRealisation'], a); h.append('BInsertReal %s %s %s %s' % (Z(a[0]), B(a[1]), OB(None if a[2] is None else a[2].decode()), Z(ts)))
        elif k == 'missingreal':
            a = [rnd.choice(C), word(['o', 'p']), ts]
            r = run(db, q['InsertMissingRealisation'], a); h.append('BInsertMissingReal %s %s %s' % (Z(a[0]), B(a[1]), Z(ts)))
        elif k == 'setpurge':
            v = maybe(lambda: ts); r = run(db, q['UpdateLastPurge'], (v,)); h.append('BUpdatePurge %s' % OZ(v))
        else:
            t1 = rnd.randrange(0, 6); t0 = rnd.randrange(0, 6)
            r = run(db, q['PurgeNars'], (t0, t1)); h.append('BPurge %s %s' % (Z(t0), Z(t1)))
        res.append('Err ErrConstraint' if r == 'constraint' else 'Ok 0%Z')
    checks = ['map snd (fst s) = %s' % L(res)]
    for u in U:
        for t in (0, 4):
            checks.append('bc_QueryCache %s %s d %s' % (B(u), Z(t), L('(%s, %s, %s, %s)' % (Z(a), B(b), Z(c), Z(e)) for a, b, c, e in run(db, q['QueryCache'], (u, t)))))
    for c in C:
        for hh in H:
            t0, t1 = rnd.randrange(-1, 6), rnd.randrange(-1, 6)
            checks.append('bc_QueryNar %s %s %s %s d %s' % (Z(c), B(hh), Z(t0), Z(t1), L('(%s, %s)' % (Z(r[0]), NI(r[1:])) for r in run(db, q['QueryNar'], (c, hh, t0, t1)))))
        for o in ('o', 'p'):
            t0, t1 = rnd.randrange(-1, 6), rnd.randrange(-1, 6)
            checks.append('bc_QueryRealisation %s %s %s %s d %s' % (Z(c), B(o), Z(t0), Z(t1), L(OB(None if r[0] is None else r[0].decode()) for r in run(db, q['QueryRealisation'], (c, o, t0, t1)))))
    lp = run(db, q['QueryLastPurge'], ())
    checks.append('bc_QueryLastPurge d %s' % ('(Err ErrNoRows)' if not lp else '(Ok %s)' % OZ(lp[0][0])))
    case('binary_%d' % i, 'let s := bc_run %s %s in let d := snd s in\n  %s' % ('true' if fk else 'false', L('(%s, true)' % x for x in h), ' /\\\n  '.join(checks)))

# nix_v10
def nix(i, fk):
    q = queries('nix_v10'); db = connect('nix_v10', fk); h = []; seq = 0; res = []
    P = ['/a', '/b', '/c', '/aa']
    t = lambda: maybe(lambda: word(['x', 'y', ''])); z = lambda: maybe(lambda: rnd.randrange(0, 9))
    for _ in range(rnd.randrange(8, 24)):
        k = rnd.choice(['reg', 'reg', 'reg', 'upd', 'ref', 'ref', 'ref', 'out', 'out', 'inv'])
        if k == 'reg':
            a = (word(P), word(['h', 'g']), rnd.randrange(0, 9), t(), z(), z(), t(), t())
            r = run(db, q['RegisterValidPath'], a); gap = 0
            if r == []:
                id, = db.execute('select id from ValidPaths where path = ?', a[:1]).fetchone(); gap = id - seq - 1; seq = id
            h.append('NRegister %s (PI %s %s %s %s %s %s %s) %d' % (B(a[0]), B(a[1]), Z(a[2]), OB(a[3]), OZ(a[4]), OZ(a[5]), OB(a[6]), OB(a[7]), gap))
        elif k == 'upd':
            a = (z(), word(['h', 'g']), z(), t(), t(), word(P)); r = run(db, q['UpdatePathInfo'], a)
            h.append('NUpdate %s %s %s %s %s %s' % (OZ(a[0]), B(a[1]), OZ(a[2]), OB(a[3]), OB(a[4]), B(a[5])))
        elif k == 'ref':
            a = (rnd.randrange(1, 6), rnd.randrange(1, 6)); r = run(db, q['AddReference'], a); h.append('NAddRef %s %s' % (Z(a[0]), Z(a[1])))
        elif k == 'out':
            a = (rnd.randrange(1, 6), word(['out', 'dev']), word(['/o1', '/o2'])); r = run(db, q['AddDerivationOutput'], a); h.append('NAddOut %s %s %s' % (Z(a[0]), B(a[1]), B(a[2])))
        else:
            a = (word(P),); r = run(db, q['InvalidatePath'], a); h.append('NInvalidate %s' % B(a[0]))
        res.append('Err ErrConstraint' if r == 'constraint' else 'Ok tt')
    checks = ['map snd (fst s) = %s' % L(res)]
    for p in P:
        rows = run(db, q['QueryPathInfo'], (p,))
        checks.append('nx_QueryPathInfo %s d %s' % (B(p), '(Err ErrNoRows)' if not rows else '(Ok (%s, PI %s %s %s %s %s %s %s))' % (Z(rows[0][0]), B(rows[0][1]), Z(rows[0][2]), OB(rows[0][3]), OZ(rows[0][4]), OZ(rows[0][5]), OB(rows[0][6]), OB(rows[0][7]))))
        checks.append('nx_QueryReferrers %s d %s' % (B(p), L(B(x) for x, in run(db, q['QueryReferrers'], (p,)))))
    for n in range(1, 6):
        checks.append('nx_QueryReferences %s d %s' % (Z(n), L(B(x) for x, in run(db, q['QueryReferences'], (n,)))))
        checks.append('nx_QueryDerivationOutputs %s d %s' % (Z(n), L('(%s, %s)' % (B(x), B(y)) for x, y in run(db, q['QueryDerivationOutputs'], (n,)))))
    for p in ('/o1', '/o2', '/a'):
        checks.append('nx_QueryValidDerivers %s d %s' % (B(p), L('(%s, %s)' % (Z(x), B(y)) for x, y in run(db, q['QueryValidDerivers'], (p,)))))
    for p in ('/', '/a', '/ab', '/b', '/z'):
        rows = run(db, q['QueryPathFromHashPart'], (p,))
        checks.append('nx_QueryPathFromHashPart %s d %s' % (B(p), '(Err ErrNoRows)' if not rows else '(Ok %s)' % B(rows[0][0])))
    case('nix_%d' % i, 'let s := nx_run %s %s in let d := snd s in\n  %s' % ('true' if fk else 'false', L('(%s, true)' % x for x in h), ' /\\\n  '.join(checks)))

for i in range(10): fetcher(i)
for i in range(12): evalc(i)
for i in range(20): binary(i, i % 2 == 0)
for i in range(30): nix(i, i % 3 != 0)
print('''(** Generated by /verif/tools/sqlite_fixtures.py (SQLite %s): random histories of the
    statements of /repo/pkg/sqlite run on a real SQLite; the model allows what it
    returned.  These are tests of the model, not part of any proof. *)
From Coq Require Import Permutation.
From Verif Require Import Base.Bytes Model.GoIO Model.Sqlite Spec.SqliteSpec.
Ltac perm :=
  match goal with
  | |- Permutation [] [] => apply perm_nil
  | |- @Permutation ?A (?x :: ?l) ?r =>
      let rec go acc r := match r with
        | x :: ?t => refine (@Permutation_cons_app _ l acc t x _); cbn [app]
        | ?y :: ?t => go constr:(acc ++ [y]) t
        end in go constr:(@nil A) r; perm
  end.
Ltac one :=
  match goal with
  | |- Permutation _ _ => perm
  | |- ?a = ?b => reflexivity
  | |- exists a, _ => eexists; split; [|reflexivity]; cbn [In]; repeat (first [left; reflexivity|right])
  end.
Ltac check := vm_compute; repeat match goal with |- _ /\\ _ => split end; one.
''' % sqlite3.sqlite_version)
print('\n'.join(out))
