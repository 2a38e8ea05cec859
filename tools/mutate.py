#!/usr/bin/env python3
"""Test the theorems against wrong programs.

usage: mutate.py MUTATIONS.json [id ...]

Each entry of the JSON list has id, file (under theories/), def, old, new, claim, and optionally
only, a list of Props_ modules to which the check is restricted.  For each one a
scratch copy of the development (outside /verif) gets the edit, everything that depends on the
edited file is recompiled, and every proof that no longer goes through is replaced by Admitted.
The theorems whose Print Assumptions output then lists an axiom are the ones that failed.
Results are printed as JSON lines on stdout."""
import json, os, re, shutil, subprocess, sys, time

BASE = os.environ.get('MUT_BASE', '/verif/rocq')
WORK = os.environ.get('MUT_DIR', '/tmp/mut/w')

def run(cmd, timeout):
    try:
        p = subprocess.run(cmd, cwd=WORK, stdout=subprocess.PIPE, stderr=subprocess.STDOUT, timeout=timeout)
        return p.returncode, p.stdout.decode(errors='replace')
    except subprocess.TimeoutExpired as e:
        return 124, (e.stdout or b'').decode(errors='replace')

def deps(files):
    out = subprocess.run(['coqdep', '-Q', 'theories', 'Verif'] + files, cwd=WORK, stdout=subprocess.PIPE, stderr=subprocess.DEVNULL).stdout.decode()
    d = {}
    for line in out.splitlines():
        m = re.match(r'(\S+)\.vo .*?: (.*)', line)
        if m:
            d[m.group(1) + '.v'] = [x[:-3] + '.v' for x in m.group(2).split() if x.endswith('.vo')]
    return d

def order(files, d):
    seen, res = set(), []
    def go(f):
        if f in seen or f not in d: return
        seen.add(f)
        for g in d[f]: go(g)
        res.append(f)
    for f in files: go(f)
    return res

def admit(path, off):
    """replace the proof around byte offset off by Admitted; return the name of the lemma"""
    s = open(path, 'rb').read()
    i = s.rfind(b'Proof.', 0, off + 6)
    if i < 0: return None
    m = re.compile(rb'\b(Qed|Defined)\.').search(s, i)
    if not m or m.end() < off: return None
    names = re.findall(rb'(?:Lemma|Theorem|Example|Corollary|Fact|Remark|Definition)\s+(\w+)', s[:i])
    s = s[:i] + b'Admitted.' + s[m.end():]
    open(path, 'wb').write(s)
    return names[-1].decode()

def compile_file(f, failed):
    path = os.path.join(WORK, f)
    for _ in range(60):
        t0 = time.time()
        limit = int(os.environ.get('MUT_TIMEOUT', '600'))
        rc, out = run(['coqc', '-time', '-Q', 'theories', 'Verif', f], limit)
        if rc == 0: return out
        m = re.search(r'File "[^"]*", line (\d+), characters (\d+)-(\d+):\nError', out)
        src = open(path, 'rb').read()
        if m:
            lines = src.split(b'\n')
            off = sum(len(l) + 1 for l in lines[:int(m.group(1)) - 1]) + int(m.group(2))
        else:
            ends = re.findall(r'^Chars (\d+) - (\d+) ', out, re.M)
            off = int(ends[-1][1]) + 1 if ends else 0
            nxt = re.compile(rb'\S').search(src, off)
            off = nxt.start() if nxt else off
        name = admit(path, off)
        if name is None:
            return None
        failed.append(f'{os.path.basename(f)[:-2]}.{name}')
    return None

def main():
    muts = json.load(open(sys.argv[1]))
    want = set(sys.argv[2:])
    for mu in muts:
        if want and mu['id'] not in want: continue
        shutil.rmtree(WORK, ignore_errors=True); shutil.copytree(BASE, WORK)
        files = [l.strip() for l in open(os.path.join(WORK, '_CoqProject')) if l.strip().endswith('.v')]
        d = deps(files)
        src = 'theories/' + mu['file']
        s = open(os.path.join(WORK, src)).read()
        if s.count(mu['old']) != 1:
            print(json.dumps({'id': mu['id'], 'error': 'old text found %d times' % s.count(mu['old'])}), flush=True); continue
        open(os.path.join(WORK, src), 'w').write(s.replace(mu['old'], mu['new']))
        dirty, failed, thms, broken = {src}, [], [], []
        t0 = time.time()
        roots = ['theories/%s.v' % m for m in mu['only']] if 'only' in mu else files
        for f in order(roots, d):
            if f not in dirty and not any(g in dirty for g in d[f]): continue
            dirty.add(f)
            out = compile_file(f, failed)
            if out is None:
                broken.append(f); break
            if '/Props_' in f:
                text = open(os.path.join(WORK, f)).read()
                pas = re.findall(r'Print Assumptions (\w+)\.', text)
                outs = re.findall(r'^(Closed under the global context|Axioms:)', out, re.M)
                for name, o in zip(pas, outs):
                    if o == 'Axioms:': thms.append(name)
        print(json.dumps({'id': mu['id'], 'definition': mu['def'], 'edit': mu.get('edit', mu['old'] + ' -> ' + mu['new']), 'claim': mu['claim'],
                          'failed_lemmas': failed, 'failed_theorems': thms, 'broken': broken, 'secs': round(time.time() - t0)}), flush=True)
main()
