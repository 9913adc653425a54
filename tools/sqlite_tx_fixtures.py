#!/usr/bin/env python3
"""Generates rocq/theories/Check/SqliteTxFixtures.v: random interleavings of transactions,
statements, queries and crashes on a real SQLite file (one connection per transaction,
as database/sql does it), in WAL and in rollback-journal mode.  The generated Examples
check that the model (Model/SqliteTx.v) does the same: whatever SQLite executed, the
model executes with the same result, every query sees the same rows, and the database
ends up the same.  What SQLite refused for a lock is a failing statement of the model."""
import os, random, sqlite3, tempfile
rnd = random.Random(115)
SCHEMA = open('/repo/pkg/sqlite/nix_v10/schema.sql').read().replace('CREATE TABLE sqlite_sequence(name,seq);', '')
REG = 'insert into ValidPaths (path, hash, registrationTime) values (?, ?, ?)'
INV = 'delete from ValidPaths where path = ?'
P = ['a', 'b', 'c', 'd']
def B(s): return '(bs "%s")' % s
def L(xs): return '[' + '; '.join(xs) + ']'
out = []
def case(i, mode):
    path = os.path.join(tempfile.mkdtemp(), 'db')
    def conn():
        c = sqlite3.connect(path, isolation_level=None, timeout=0); c.execute('pragma foreign_keys = on'); return c
    c = conn(); c.execute('pragma journal_mode = ' + mode); c.executescript(SCHEMA); c.close()
    db = conn(); txs = []; es = []; outs = []; views = []
    def emit(e, o, v=None): es.append(e); outs.append(o); views.append('None' if v is None else '(Some %s)' % v)
    def see(c): return [p for p, in c.execute('select path from ValidPaths order by path').fetchall()]
    for _ in range(rnd.randrange(10, 40)):
        k = rnd.choice(['begin', 'db', 'tx', 'tx', 'tx', 'tx', 'qdb', 'qtx', 'qtx', 'commit', 'commit', 'rollback', 'crash' if rnd.random() < 0.2 else 'tx'])
        n = rnd.randrange(len(txs)) if txs else 0
        if k == 'begin':
            if sum(1 for t in txs if t) >= 3: continue
            c = conn(); c.execute('begin'); txs.append(c); emit('EBegin', 'Done')
        elif k in ('db', 'tx'):
            if k == 'tx' and not txs: continue
            h = 'None' if k == 'db' else '(Some %d)' % n
            p = rnd.choice(P); reg = rnd.random() < 0.7
            op = '(NRegister %s (PI (bs "h") 1 None None None None None) 0)' % B(p) if reg else '(NInvalidate %s)' % B(p)
            c = db if k == 'db' else txs[n]
            if c is None: emit('EExec %s %s Fine' % (h, op), 'ErrTxDone'); continue
            try:
                c.execute(REG if reg else INV, (p, 'h', 1) if reg else (p,)); f, o = 'Fine', 'Ran (Ok tt)'
            except sqlite3.IntegrityError: f, o = 'Fine', 'Ran (Err ErrConstraint)'
            except sqlite3.OperationalError as e:
                assert 'locked' in str(e); f, o = 'Fails', 'Failed'
                assert k == 'db' or c.in_transaction
            emit('EExec %s %s %s' % (h, op, f), o)
            if o == 'Ran (Ok tt)' and reg:
                # ids are checked by the other fixtures; here the sequence must not skip
                pass
        elif k == 'qdb': emit('EQuery None', 'Done', L(B(p) for p in see(db)))
        elif k == 'qtx':
            if not txs: continue
            if txs[n] is None: emit('EQuery (Some %d)' % n, 'ErrTxDone')
            else: emit('EQuery (Some %d)' % n, 'Done', L(B(p) for p in see(txs[n])))
        elif k in ('commit', 'rollback'):
            if not txs: continue
            e = ('ECommit %d ' if k == 'commit' else 'ERollback %d') % n
            c = txs[n]
            if c is None: emit(e + ('Fine' if k == 'commit' else ''), 'ErrTxDone'); continue
            if k == 'commit':
                try: c.execute('commit'); emit(e + 'Fine', 'Done')
                except sqlite3.OperationalError as x:
                    assert 'locked' in str(x); c.execute('rollback'); emit(e + 'Fails', 'Failed')
            else: c.execute('rollback'); emit(e, 'Done')
            c.close(); txs[n] = None
        else:
            for j, c in enumerate(txs):
                if c: c.close(); txs[j] = None
            db.close(); db = conn(); emit('ECrash', 'Done')
    final = see(db)
    out.append('Example %s_%d : let es := %s in\n  map snd (fst (tx_run (nx_step true) es nx_empty)) = %s /\\\n  views es = %s /\\\n  paths (w_db (snd (tx_run (nx_step true) es nx_empty))) = %s.\nProof. vm_compute. repeat split. Qed.'
               % (mode, i, L(es), L(outs), L(views), L(B(p) for p in final)))
    return es
for i in range(40):
    case(i, 'wal' if i % 2 else 'delete')
print('''(** Generated by /verif/tools/sqlite_tx_fixtures.py (SQLite %s): random interleavings
    of transactions run on a real SQLite file; the model of the transactions
    (Model/SqliteTx.v) agrees.  These are tests of the model, not part of any proof. *)
From Verif Require Import Base.Bytes Model.GoIO Model.Sqlite Model.SqliteTx Spec.SqliteSpec.
Definition paths (d : nxdb) : list bytes := sort_strings (map vp_path (n_paths d)).
(** What each query saw. *)
Definition views (es : list (event nx_op)) : list (option (list bytes)) :=
  map (fun k => let w := snd (tx_run (nx_step true) (firstn k es) nx_empty) in
                match nth_error es k with Some (EQuery tx) => option_map paths (sees (q_db (handle tx)) w) | _ => None end) (seq 0 (length es)).
''' % sqlite3.sqlite_version)
print('\n'.join(out))
