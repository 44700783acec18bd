#!/usr/bin/env python3
"""Seeded-bug runner. usage: mutate.py MUTANTS.json [ID ...]

Copies /verif/rocq to a scratch directory, applies one textual edit to the model,
rebuilds, and replaces every proof that fails by Admitted (in the scratch copy
only) until the build ends. A theorem counts as failed when its own proof failed
or when it rests on a lemma whose proof failed. Results go to RESULTS.jsonl in
the scratch directory."""
import json, os, re, shutil, subprocess, sys, time
ROOT = os.environ.get('MUT_DIR', '/tmp/mut')
J = os.environ.get('MUT_J', '2')
START = re.compile(r'^\s*(?:#\[[^\]]*\]\s*)?(?:Local |Global )?(Lemma|Theorem|Example|Corollary|Fact|Remark|Instance)\s+([A-Za-z0-9_\']+)')

def make(d):
    # MUT_TARGETS: the modules to build (all by default)
    t = ['theories/%s.vo' % x for x in os.environ.get('MUT_TARGETS', '').split()]
    r = subprocess.run(['nice', 'timeout', '3000', 'make', '-k', '-j' + J, 'COQC=timeout 420 coqc'] + t, cwd=d, capture_output=True, text=True)
    return r.stdout + r.stderr

def admit(path, line):
    src = open(path).read().split('\n')
    i = line - 1
    while i >= 0 and not START.match(src[i]): i -= 1
    if i < 0: return None
    name = START.match(src[i]).group(2)
    # statement up to Proof., proof up to Qed.
    text = '\n'.join(src[i:])
    m = re.search(r'\bProof\b[^.]*\.', text)
    q = re.search(r'\bQed\.', text)
    if not m or not q or q.start() < m.start(): return None
    head = '\n'.join(src[:i])
    body = text[:m.start()] + 'Proof. Admitted.' + '\n' * text[m.start():q.end()].count('\n') + text[q.end():]
    # error must be inside the proof or be the Qed
    upto = line - i
    if upto <= text[:m.start()].count('\n') and text[:m.start()].strip().count('\n') + 1 < upto: return None
    open(path, 'w').write((head + '\n' if i else '') + body)
    return name

def run(mut):
    d = os.path.join(ROOT, 'w')
    shutil.rmtree(d, ignore_errors=True)
    os.makedirs(ROOT, exist_ok=True)
    subprocess.run(['cp', '-a', os.environ.get('MUT_SRC', '/verif/rocq'), d], check=True)
    for e in mut['edits'] if 'edits' in mut else [mut]:
        p = os.path.join(d, 'theories', e['file'])
        s = open(p).read()
        if s.count(e['old']) < 1: return {'id': mut['id'], 'error': 'text not found: ' + e['old']}
        if s.count(e['old']) > 1 and not e.get('all'): return {'id': mut['id'], 'error': 'text not unique: ' + e['old']}
        open(p, 'w').write(s.replace(e['old'], e['new']))
    failed, trouble = [], None
    t0 = time.time()
    for it in range(60):
        out = make(d)
        errs = re.findall(r'File "\./theories/([A-Za-z0-9]+\.v)", line (\d+), characters [^\n]*\n(Error|[^\n]*\n?Error)', out)
        # a proof that no longer ends: the command after the last one that did
        slow = re.findall(r'theories/([A-Za-z0-9]+)\.vo\] Error 124', out)
        for f in slow:
            with open(os.path.join(d, 'time.log'), 'w') as g:
                subprocess.run(['timeout', '420', 'coqc', '-time', '-Q', 'theories', 'Verif', 'theories/%s.v' % f], cwd=d, stdout=g, stderr=subprocess.DEVNULL)
            c = re.findall(r'^Chars (\d+) - (\d+) ', open(os.path.join(d, 'time.log')).read(), re.M)
            src = open(os.path.join(d, 'theories', f + '.v'), 'rb').read()
            k = int(c[-1][1]) if c else 0
            while k < len(src) and src[k:k+1].isspace(): k += 1
            errs.append((f + '.v', str(src[:k].count(b'\n') + 1), ''))
        if not errs:
            if 'Error' in out and '***' in out: trouble = out[-600:]
            break
        n = 0
        for f, l, _ in errs:
            name = admit(os.path.join(d, 'theories', f), int(l))
            if name is None: trouble = '%s:%s' % (f, l) + ' ' + out[out.find(f):][:400]; break
            failed.append(name); n += 1
        if trouble: break
        if time.time() - t0 > 3000: trouble = 'time'; break
    # which claims rest on admitted lemmas
    thms = []
    mods = {}
    for f in sorted(os.listdir(os.path.join(d, 'theories'))):
        vo = os.path.join(d, 'theories', f + 'o')
        # with MUT_TARGETS only what was built again fits together
        if f.startswith('Properties') and f.endswith('.v') and os.path.exists(vo) and (not os.environ.get('MUT_TARGETS') or os.path.getmtime(vo) >= t0):
            for l in open(os.path.join(d, 'theories', f)):
                m = re.match(r'^\s*(Theorem|Example) (C\d+\w*)', l)
                if m: thms.append(m.group(2)); mods[m.group(2)] = f[:-2]
    t = 'From Verif Require ' + ' '.join(sorted(set(mods.values()))) + '.\n'
    bad = []
    if thms and failed:
        for x in thms: t += 'Print Assumptions %s.%s.\n' % (mods[x], x)
        open(os.path.join(d, 'chk.v'), 'w').write(t)
        r = subprocess.run(['coqc', '-Q', 'theories', 'Verif', 'chk.v'], cwd=d, capture_output=True, text=True)
        parts = re.split(r'(?m)^(?=Closed under|Axioms:)', r.stdout)
        parts = [p for p in parts if p.strip()]
        if len(parts) != len(thms): trouble = 'chk ' + r.stderr[-300:]
        else: bad = [x for x, p in zip(thms, parts) if p.startswith('Axioms')]
    return {'id': mut['id'], 'lemmas': failed, 'theorems': bad, 'trouble': trouble, 'secs': int(time.time() - t0)}

def main():
    muts = json.load(open(sys.argv[1]))
    want = sys.argv[2:]
    for m in muts:
        if want and m['id'] not in want: continue
        r = run(m)
        with open(os.path.join(ROOT, 'RESULTS.jsonl'), 'a') as f: f.write(json.dumps(r) + '\n')
        print(json.dumps(r), flush=True)
main()
