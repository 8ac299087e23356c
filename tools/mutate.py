#!/usr/bin/env python3
"""Test the theorems against a wrong program.

usage: mutate.py FILE.v CLAIM 'definition' 'old text' 'new text' ['note']

Copies rocq/ to a scratch directory outside of the repository, applies the edit to the
model file, and compiles everything that depends on it.  A proof that fails is replaced
by Admitted *in the scratch copy only* so that all failures are found; the theorems of
the Prop files whose Print Assumptions then lists such a lemma are the ones that failed.
Appends a line to seeded/LOG.jsonl.  With MUT_FIRST set in the environment the run stops
after the first Prop file in which a theorem failed; the log line says so.  With MUT_GOAL only
the named files, and what they need, are compiled."""
import json, os, re, shutil, subprocess, sys, tempfile
ROOT = os.path.dirname(os.path.dirname(os.path.abspath(__file__)))

def order():
    return [l.strip()[len('theories/'):-2] for l in open(f'{ROOT}/rocq/_CoqProject') if l.strip().endswith('.v')]

def deps(files, d):
    out = {}
    for f in files:
        t = open(f'{d}/{f}.v').read()
        s = set()
        for m in re.finditer(r'From Verif Require (?:Import|Export) ([^.]*)\.', t):
            s |= set(m.group(1).split())
        out[f] = s
    return out

def failing(f, d, out, admitted):
    """the theorems of a Prop file that rest on an admitted lemma"""
    names = re.findall(r'Print Assumptions (\w+)\.', open(f'{d}/{f}.v').read())
    blocks = re.split(r'(?m)^(?=Closed under the global context|Axioms:)', out)
    blocks = [b for b in blocks if b.startswith(('Closed', 'Axioms'))]
    if len(blocks) != len(names):
        print('cannot match assumptions of', f, len(blocks), len(names)); return set()
    return {n for n, b in zip(names, blocks)
            if b.startswith('Axioms') and any(re.search(r'\b%s\b' % re.escape(a.split('.')[-1]), b) for a in admitted)}

def run(defn, file, claim, old, new, note='', tightened=(), log=True, quiet=False):
    scratch = tempfile.mkdtemp(prefix='mut', dir='/tmp')
    d = f'{scratch}/theories'
    shutil.copytree(f'{ROOT}/rocq/theories', d)
    p = f'{d}/{file}.v'
    t = open(p).read()
    if t.count(old) != 1:
        print(f'edit matches {t.count(old)} times: {old!r}'); shutil.rmtree(scratch); return None
    open(p, 'w').write(t.replace(old, new))
    files = order()
    dp = deps(files, d)
    dirty = {file}
    goal = set(os.environ.get('MUT_GOAL', '').split())
    if goal:
        for f in reversed(files):
            if f in goal: goal |= dp[f]
        files = [f for f in files if f in goal]
    admitted, examples, dead = [], [], []
    failed = set()
    stopped = False
    for f in files:
        if f in dirty or dp[f] & dirty:
            dirty.add(f)
            if dp[f] & {x.split(' ')[0] for x in dead}:
                dead.append(f); continue
            for _ in range(60):
                try:
                    r = subprocess.run(['coqc', '-Q', '.', 'Verif', f'{f}.v'], cwd=d, capture_output=True, text=True, timeout=900)
                except subprocess.TimeoutExpired:
                    dead.append(f + ' (timeout)'); break
                if r.returncode == 0:
                    if f.startswith('Prop'):
                        failed |= failing(f, d, r.stdout, admitted)
                    break
                m = re.search(r'line (\d+), characters', r.stderr)
                if not m:
                    dead.append(f); print(r.stderr[-500:]); break
                ln = int(m.group(1))
                lines = open(f'{d}/{f}.v').read().split('\n')
                # enclosing statement
                i = ln - 1
                while i >= 0 and not re.match(r'\s*(Lemma|Theorem|Example|Definition|Fixpoint|Corollary|Instance|Inductive|Record)\b', lines[i]):
                    i -= 1
                if i < 0:
                    dead.append(f); print(r.stderr[-500:]); break
                k = re.match(r'\s*(\w+)\s+(\S+)', lines[i])
                kind, name = k.group(1), k.group(2)
                j = i
                while j < len(lines) and not re.search(r'\bProof\.', lines[j]):
                    j += 1
                if kind not in ('Lemma', 'Theorem', 'Example', 'Corollary') or j >= len(lines):
                    dead.append(f'{f} ({kind} {name})'); print(r.stderr[-600:]); break
                e = j
                while not re.search(r'\b(Qed|Defined)\.', lines[e]):
                    e += 1
                lines[j] = re.sub(r'Proof\..*', 'Admitted.', lines[j])
                for x in range(j + 1, e + 1):
                    lines[x] = ''
                open(f'{d}/{f}.v', 'w').write('\n'.join(lines))
                (examples if kind == 'Example' else admitted).append(f'{name}')
            else:
                dead.append(f)
            failed |= {a for a in admitted if re.match(r'c\d+_', a)}
            if failed and os.environ.get('MUT_FIRST'):
                stopped = True; break
    failed |= {a for a in admitted if re.match(r'c\d+_', a)}
    failed = sorted(failed)
    res = {'definition': defn, 'edit': f'{old}  ->  {new}', 'claim': claim, 'theorems_failed': failed,
           'lemmas_failed': admitted, 'examples_failed': examples, 'not_compiled': dead, 'theorems_tightened': [t for t in tightened if t in failed], 'note': note + (' (stopped at the first file with a failing theorem)' if stopped else '')}
    if log:
        with open(f'{ROOT}/seeded/LOG.jsonl', 'a') as g:
            g.write(json.dumps(res) + '\n')
    if not quiet:
        print(f"{defn}: failed {failed} lemmas {admitted[:6]} examples {examples[:4]} dead {dead}" + ('' if failed or dead else '   <<<<<< SURVIVED'))
    shutil.rmtree(scratch)
    return res

if __name__ == '__main__':
    a = sys.argv[1:]
    if a and a[0] == '-b':
        for d in json.load(open(a[1])):
            run(d[0], d[1], d[2], d[3], d[4], d[5] if len(d) > 5 else '', d[6] if len(d) > 6 else ())
    else:
        run(a[2], a[0], a[1], a[3], a[4], a[5] if len(a) > 5 else '')
