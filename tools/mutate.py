#!/usr/bin/env python3
"""Mutation testing of the theorems.  usage: mutate.py MUTATIONS.json SCRATCH LOG
Each mutation {file, def, old, new, claim[, count]} is applied to a scratch copy of rocq/ (which
must be built); every file depending on it is recompiled.  Proofs that fail (or take too long)
are admitted in the scratch copy and recorded; theorems whose assumptions are then no longer
closed are those that caught the mutation."""
import json, os, re, shutil, subprocess, sys
SRC = os.environ.get('MUT_SRC', '/verif/rocq')
LIMIT = int(os.environ.get('MUT_LIMIT', '300'))
SKIP = re.compile(os.environ.get('MUT_SKIP', '$^'))  # dependent files not to recompile
STOP = os.environ.get('MUT_STOP')  # stop at the first file with a theorem that catches the mutation
def deps(d):
    out = subprocess.run(['coqdep', '-Q', 'theories', 'Verif'] + ['theories/' + f for f in sorted(os.listdir(d + '/theories')) if f.endswith('.v')],
                         cwd=d, capture_output=True, text=True).stdout
    g = {}
    for l in out.splitlines():
        m = re.match(r'theories/(\w+)\.vo [^:]*: (.*)', l)
        if m:
            g[m.group(1)] = [x[9:-3] for x in m.group(2).split() if x.endswith('.vo')]
    return g
def order(g, root):
    hit = {root}; out = []
    seen = set()
    def visit(f):
        if f in seen: return
        seen.add(f)
        for x in g[f]: visit(x)
        if f == root or any(x in hit for x in g[f]):
            hit.add(f); out.append(f)
    for f in sorted(g): visit(f)
    return out
STMT = re.compile(r'^(?:Local |Global )?(?:Theorem|Lemma|Example|Corollary|Fact|Remark|Instance)\s+(\w+)', re.M)
ENDP = re.compile(r'\b(Qed|Defined)\.')
def compile_file(d, f):
    """returns (list of failed statements, not-closed theorems, fatal)"""
    path = f'{d}/theories/{f}.v'
    failed = []
    while True:
        src = open(path).read()
        try:
            p = subprocess.run(['coqc', '-Q', 'theories', 'Verif', '-time', f'theories/{f}.v'], cwd=d, capture_output=True, text=True, timeout=LIMIT)
            out, err, rc = p.stdout, p.stderr, p.returncode
        except subprocess.TimeoutExpired as e:
            out = (e.stdout or b'').decode(); err = ''; rc = 124
        if rc == 0: break
        raw = src.encode()
        m = re.search(r'line (\d+), characters', err)
        if rc == 124 or not m:
            ends = [int(x) for x in re.findall(r'^Chars \d+ - (\d+)', out, re.M)]
            pos = len(raw[:ends[-1] + 1].decode(errors='ignore')) + 1 if ends else 0
        else:
            ln = int(m.group(1)); pos = sum(len(x) + 1 for x in src.split('\n')[:ln - 1]) + 1
            # error inside a line: position at line start, statement may start on the line
        st = None
        for s in STMT.finditer(src):
            if s.start() <= pos: st = s
            else: break
        if st is None: return failed, [], (err or 'timeout')[:200]
        mp = re.compile(r'^\s*Proof\b', re.M).search(src, st.start()); pr = mp.start() if mp else -1
        en = ENDP.search(src, st.end())
        if pr < 0 or en is None or st.group(1) in failed or en.end() < pos - 1:
            return failed, [], (err or 'timeout')[:200]
        failed.append(st.group(1))
        src = src[:pr] + 'Admitted.' + src[en.end():]
        open(path, 'w').write(src)
    names = re.findall(r'^Print Assumptions (\w+)', src, re.M)
    res = re.findall(r'^(Closed under the global context|Axioms:)', out, re.M)
    bad = [n for n, r in zip(names, res) if r == 'Axioms:']
    return failed, bad, None
def main():
    muts = json.load(open(sys.argv[1])); d = sys.argv[2]; log = sys.argv[3]
    for mu in muts:
        if os.path.exists(d): shutil.rmtree(d)
        subprocess.run(['cp', '-a', SRC, d], check=True)
        path = f"{d}/theories/{mu['file']}.v"
        s = open(path).read()
        n = s.count(mu['old'])
        if n < 1 or (n != 1 and not mu.get('count')):
            print('SKIP', n, mu['old'], flush=True); continue
        s = s.replace(mu['old'], mu['new']); open(path, 'w').write(s)
        g = deps(d); caught = []; direct = []; fatal = stopped = None
        for f in order(g, mu['file']):
            if SKIP.match(f): continue
            fl, bad, fatal = compile_file(d, f)
            direct += fl; caught += bad
            caught += [x for x in fl if re.match(r'C\d\d', x) and x not in caught]
            if fatal: fatal = f + ': ' + fatal; break
            if STOP and caught: stopped = 'not recompiled after ' + f; break
        rec = {'definition': f"{mu['file']}.{mu['def']}", 'edit': f"{mu['old']}  =>  {mu['new']}", 'claim_broken': mu['claim'],
               'theorems_failed': sorted(set(caught)), 'proofs_failed': direct[:12], 'theorems_tightened': mu.get('tightened', [])}
        if fatal or stopped: rec['stopped'] = fatal or stopped
        open(log, 'a').write(json.dumps(rec) + '\n')
        print(mu['file'], mu['def'], '| caught:', sorted(set(caught)), '| direct:', direct[:6], fatal or '', flush=True)
main()
