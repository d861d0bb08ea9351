#!/usr/bin/env python3
"""Replay the reference files in /repo/data_pytest through the Rocq model.

Each file holds one recorded run of the original program.  The recorded site
sequence is given to [replay_file] of the model, with sets iterating the way
CPython iterates small sets of ints.  The script compares pc, the cluster
counts, both order parameters and, after evaluating the model's floating-point
expressions, the entropy of every step, all with ==.

Usage: replay_reference.py [L5 L10 L25]   (needs the compiled model in ../rocq)
"""
import glob, json, math, os, re, subprocess, sys, tempfile

sys.setrecursionlimit(1000000)
HERE = os.path.dirname(os.path.abspath(__file__))
THEORIES = os.path.join(HERE, '..', 'rocq', 'theories')
DATA = '/repo/data_pytest/SitePercolationL0__percolation_cross_check_data_%s_*.txt'
PRELUDE = '''From Coq Require Import ZArith List Bool.
From Verif Require Import Py Lattice Cluster Perc Run.
Import ListNotations. Open Scope Z_scope.
Fixpoint probe (fuel : nat) (tab : list (option Z)) (i perturb x : Z) : list (option Z) :=
  match fuel with O => tab | S f =>
  match nth (Z.to_nat i) tab None with
  | None => firstn (Z.to_nat i) tab ++ Some x :: skipn (S (Z.to_nat i)) tab
  | Some y => if x =? y then tab else let p := Z.shiftr perturb 5 in probe f tab ((i * 5 + 1 + p) mod 8) p x end end.
Definition cord (l : list Z) : list Z :=
  flat_map (fun o => match o with Some x => [x] | None => [] end)
    (fold_left (fun tab x => probe 40 tab (x mod 8) x x) l (repeat None 8)).
Definition ce := mkEnv cord (fun _ => 0).
Definition num (f : fexpr) : Z := match f with FDiv (FZ a) _ => a | FZ a => a | _ => -1 end.
(* one entropy value per step: the terms added and subtracted at that step *)
Definition last_term (f : fexpr) : fexpr := match f with FSub (FAdd _ a) b => FSub a b | e => e end.
Set Printing Width 1000000. Set Printing Depth 10000000.
'''
ARITY = {'FZ': 1, 'FDiv': 2, 'FAdd': 2, 'FSub': 2, 'FMul': 2, 'FNeg': 1, 'FLog': 1}


def parse_list(text):
    toks = re.findall(r'\(|\)|;|[A-Za-z]+|-?\d+', text)
    pos = 0

    def atom():
        nonlocal pos
        if toks[pos] == '(':
            pos += 1
            v = app()
            assert toks[pos] == ')'
            pos += 1
            return v
        v = int(toks[pos])
        pos += 1
        return v

    def app():
        nonlocal pos
        h = toks[pos]
        if h not in ARITY:
            return atom()
        pos += 1
        return (h, [atom() for _ in range(ARITY[h])])

    out = []
    while pos < len(toks):
        out.append(app())
        if pos < len(toks):
            assert toks[pos] == ';'
            pos += 1
    return out


def value(x):
    if isinstance(x, int):
        return x
    h, a = x[0], [value(y) for y in x[1]]
    return {'FZ': lambda: a[0], 'FDiv': lambda: a[0] / a[1], 'FAdd': lambda: a[0] + a[1], 'FSub': lambda: a[0] - a[1],
            'FMul': lambda: a[0] * a[1], 'FNeg': lambda: -a[0], 'FLog': lambda: math.log(a[0])}[h]()


def main():
    for name in sys.argv[1:] or ['L5', 'L10', 'L25']:
        d = json.loads(open(glob.glob(DATA % name)[0]).readline())
        n = d['length']
        ixs = '; '.join('(%d, %d)' % tuple(x) for x in d['site_index_sequence'])
        src = PRELUDE + '''Definition R := Eval vm_compute in
  match replay_file ce (S (Z.to_nat (%d * %d))) 0 (mkCheck %d [] [%s] (FZ 0) 0 0 [] [] []) with
  | Ok (pc, a, b, h, pl, pw) => ([num pc; a; b], map num pl, map num pw, map last_term h)
  | Err _ => ([], [], [], []) end.
Print R.
''' % (n, n, n, ixs)
        with tempfile.TemporaryDirectory() as t:
            f = os.path.join(t, 'replay.v')
            open(f, 'w').write(src)
            out = subprocess.run(['coqc', '-Q', THEORIES, 'Verif', f], stdout=subprocess.PIPE, text=True, check=True).stdout
        heads, pl, pw, h = [parse_list(x) for x in re.findall(r'\[(.*?)\]', out, re.S)[:4]]
        ent, cur = [], math.log(2 * n * n)
        for h_op, (added, removed) in h:
            assert h_op == 'FSub'
            cur = (cur + value(added)) - value(removed)
            ent.append(cur)
        ok = {
            'pc': heads[0] / (n * n) == d['pc'],
            'sites': heads[1] == d['site_count_wrapping_cluster_pc'],
            'bonds': heads[2] == d['bond_count_wrapping_cluster_pc'],
            'largest': [x / (2 * n * n) for x in pl] == d['order_largest_list'],
            'wrapping': [x / (2 * n * n) for x in pw] == d['order_wrapping_list'],
            'entropy': ent == d['entropy_list'],
        }
        print(name, len(ent), 'steps', ok)


main()
