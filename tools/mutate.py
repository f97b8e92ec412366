#!/usr/bin/env python3
"""Mutation testing of the theorems.  usage: mutate.py MUTANTS.json OUT.jsonl [workers]
For each mutant: copy the built tree, apply the textual edit to a model definition, recompile what depends on it.
A proof that fails (or takes more than TIMEOUT) is replaced by Admitted in the scratch copy and compilation goes on, so
that at the end every theorem whose proof rests on a failed one is known exactly (Print Assumptions)."""
import json, os, re, shutil, subprocess, sys, concurrent.futures as cf
ROOT = os.environ.get('MUT_ROOT', '/verif/rocq')
TIMEOUT = 90
START = re.compile(r'^\s*(?:(?:Local|Global|#\[[^\]]*\])\s+)*(Lemma|Theorem|Corollary|Example|Fact|Remark|Instance|Definition|Fixpoint|Inductive|Record|Ltac)\s+(\w+)', re.M)

def deps(d):
    out = subprocess.run(['coqdep', '-Q', 'theories', 'Verif'] + sorted('theories/' + f for f in os.listdir(d + '/theories') if f.endswith('.v')),
                         cwd=d, capture_output=True, text=True).stdout
    dep = {}
    for line in out.splitlines():
        l, _, r = line.partition(':')
        if not l.split() or not l.split()[0].endswith('.vo'): continue
        f = os.path.basename(l.split()[0])[:-3]
        dep[f] = [os.path.basename(x)[:-3] for x in r.split() if x.endswith('.vo') and x.startswith('theories')]
    return dep

def comp(d, f):
    """None if ok, else (line offset in characters, message)"""
    try:
        p = subprocess.run(['coqc', '-q', '-time', '-Q', 'theories', 'Verif', f'theories/{f}.v'], cwd=d, capture_output=True, text=True, timeout=TIMEOUT + 60)
        if p.returncode == 0: return None
        m = re.search(r'line (\d+), characters (\d+)-(\d+):\s*\n?(.*)', p.stderr, re.S)
        txt = open(f'{d}/theories/{f}.v', 'rb').read()
        pos = sum(len(x) + 1 for x in txt.split(b'\n')[:int(m.group(1)) - 1]) + int(m.group(2)) if m else 0
        return pos, (m.group(4) if m else p.stderr)[:200]
    except subprocess.TimeoutExpired as e:
        ends = re.findall(rb'Chars (\d+) - (\d+) ', e.stdout or b'')
        return (int(ends[-1][1]) + 1 if ends else 0), 'timeout'

def admit(d, f, pos):
    """replace the proof around byte position pos; return its name or None"""
    path = f'{d}/theories/{f}.v'
    txt = open(path, 'rb').read().decode('latin-1')
    name = kind = None; at = 0
    for m in START.finditer(txt):
        if m.start() > pos: break
        kind, name, at = m.group(1), m.group(2), m.start()
    # Definition with := inside cannot be admitted
    mp = re.compile(r'\bProof\b').search(txt, at)
    if name is None or kind in ('Inductive', 'Record', 'Ltac', 'Fixpoint') or not mp: return None
    nxt = START.search(txt, at + 5)
    if nxt and nxt.start() < mp.start(): return None
    if pos < mp.start(): return None
    me = re.compile(r'\b(Qed|Defined)\.').search(txt, mp.start())
    if pos > me.end(): return None
    txt = txt[:mp.start()] + 'Proof. Admitted.' + txt[me.end():]
    open(path, 'wb').write(txt.encode('latin-1'))
    return name

def run(job):
    mu, man = job
    d = f'/tmp/mut/{mu["id"]}'
    shutil.rmtree(d, ignore_errors=True)
    shutil.copytree(ROOT, d)
    path = f'{d}/theories/{mu["file"]}.v'
    txt = open(path).read()
    if txt.count(mu['old']) != 1:
        shutil.rmtree(d); return dict(mu, status='BADPATTERN', n=txt.count(mu['old']))
    open(path, 'w').write(txt.replace(mu['old'], mu['new']))
    dep = deps(d)
    aff, order, seen = {mu['file']}, [], set()
    def visit(f):
        if f in seen: return
        seen.add(f)
        for x in dep[f]: visit(x)
        order.append(f)
    for f in sorted(dep): visit(f)
    for f in order:
        if any(x in aff for x in dep[f]): aff.add(f)
    failed, bad = [], []
    skip = set()
    for f in [f for f in order if f in aff]:
        if any(x in skip for x in dep[f]): skip.add(f); continue
        for _ in range(60):
            r = comp(d, f)
            if r is None: break
            n = admit(d, f, r[0])
            if n is None:
                bad.append(f'{f}: {r[1]}'); skip.add(f); break
            failed.append(f'{f}.{n}')
    # who rests on a failed proof
    names = {x.split('.')[1] for x in failed}
    lost = []
    src = {}
    for f in aff:
        for m in re.finditer(r'^\s*(?:Theorem|Lemma|Corollary|Example)\s+(\w+)', open(f'{d}/theories/{f}.v').read(), re.M): src.setdefault(m.group(1), f)
    chk = [t for t in man if t in src and src[t] not in skip]
    lost = [t for t in man if t in src and src[t] in skip]
    if names and chk:
        files = sorted({src[t] for t in chk})
        with open(f'{d}/chk.v', 'w') as h:
            for t in chk:
                h.write(f'From Verif Require {src[t]}.\nPrint Assumptions {src[t]}.{t}.\nDefinition chk_end_{t} := 0.\n')
        p = subprocess.run(['coqc', '-q', '-Q', 'theories', 'Verif', 'chk.v'], cwd=d, capture_output=True, text=True, timeout=600)
        blocks = re.split(r'(?=^Closed under the global context|^Axioms:)', p.stdout, flags=re.M)
        blocks = [b for b in blocks if b.startswith(('Closed', 'Axioms'))]
        if len(blocks) != len(chk): bad.append(f'assumption check: {len(blocks)} blocks for {len(chk)}: {p.stderr[:200]}')
        else: lost += [t for t, b in zip(chk, blocks) if b.startswith('Axioms')]
    shutil.rmtree(d, ignore_errors=True)
    st = 'INVALID' if (not failed and bad) else ('KILLED' if lost else ('ONLYLEMMAS' if failed else 'SURVIVED'))
    return dict(mu, status=st, failed_proofs=failed, lost=sorted(lost), bad=bad)

if __name__ == '__main__':
    muts = json.load(open(sys.argv[1])); out = sys.argv[2]; w = int(sys.argv[3]) if len(sys.argv) > 3 else 3
    done = {json.loads(l)['id'] for l in open(out)} if os.path.exists(out) else set()
    man = sorted({t for c in json.load(open('/verif/MANIFEST.json'))['claims'] for t in c['theorems']})
    todo = [(m, man) for m in muts if m['id'] not in done]
    with cf.ProcessPoolExecutor(w) as ex:
        futs = [ex.submit(run, j) for j in todo]
        for fu in cf.as_completed(futs):
            try: r = fu.result()
            except Exception as e: print('EXC', repr(e)); continue
            with open(out, 'a') as h: h.write(json.dumps(r) + '\n')
            print(r['id'], r['status'], len(r.get('failed_proofs', [])), r.get('lost'), r.get('bad'), flush=True)
