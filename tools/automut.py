#!/usr/bin/env python3
"""Generated edits of the model. usage: automut.py gen|gen2 OUT.json N SEED FILE... | automut.py run OUT.json WORKDIR RESULTS K M

gen: at most N edits per definition (operators, constants, conditions, projections).
run: every K-th of M edits; rebuild until the first failure. A result is invalid
(the model does not compile), killed (with the first failing item) or survived."""
import json, os, random, re, shutil, subprocess, sys, time
SRC = os.environ.get('MUT_SRC', '/verif/rocq')
J = os.environ.get('MUT_J', '2')
HEAD = re.compile(r'^(?:Definition|Fixpoint|Inductive|Record|Class|Instance|Program Definition|  Definition|  Fixpoint) +([A-Za-z0-9_\']+)', re.M)
ANY = re.compile(r'^\s*(?:#\[[^\]]*\]\s*)?(?:Local |Global )?(?:Lemma|Theorem|Example|Corollary|Fact|Remark|Instance|Definition|Fixpoint)\s+([A-Za-z0-9_\']+)')

def blank_comments(s):
    out, d, i = list(s), 0, 0
    while i < len(s):
        if s.startswith('(*', i): d += 1; out[i] = out[i+1] = ' '; i += 2; continue
        if d and s.startswith('*)', i): d -= 1; out[i] = out[i+1] = ' '; i += 2; continue
        if d and s[i] != '\n': out[i] = ' '
        i += 1
    return ''.join(out)

def edits(t):
    """edits of the text t: (start, end, new, what)"""
    for m in re.finditer(r'\bif ([^\n]+?) then', t): yield m.start(1), m.end(1), 'negb (%s)' % m.group(1), 'condition negated'
    for m in re.finditer(r'(?<![\w.\'])(0x[0-9A-Fa-f]+|\d+)(?![\w.])', t):
        v = int(m.group(1), 0); yield m.start(), m.end(), ('0x%X' % (v + 1) if m.group(1).startswith('0x') else str(v + 1)), 'constant %s plus one' % m.group(1)
    for a, b in [('&&', '||'), ('||', '&&'), (' <? ', ' <=? '), (' <=? ', ' <? '), ('Nat.ltb', 'Nat.leb'), ('Nat.leb', 'Nat.ltb'),
                 ('negb ', ''), ('seoj', 'deoj'), ('deoj', 'seoj'), ('m_set', 'm_get'), ('m_get', 'm_set'), (' + ', ' - '), (' - ', ' + '),
                 ('filter', 'filter (fun _ => true) <| filter'), ('existsb', 'forallb'), ('forallb', 'existsb'), ('hd_error', 'last_error')]:
        for m in re.finditer(re.escape(a), t):
            if '<|' in b: continue
            yield m.start(), m.end(), b, '%s instead of %s' % (b.strip() or 'nothing', a.strip())
    for a, b in [('true', 'false'), ('false', 'true'), ('fst', 'snd'), ('snd', 'fst'), ('S', ''), ('rev', '')]:
        for m in re.finditer(r'(?<![\w.\'])%s(?![\w.\'])' % a, t): yield m.start(), m.end(), b, '%s instead of %s' % (b or 'nothing', a)
    for m in re.finditer(r"([\w']+) \+\+ ([\w']+)", t): yield m.start(), m.end(), '%s ++ %s' % (m.group(2), m.group(1)), 'appended in the other order'
    for m in re.finditer(r'Some (\w+|\([^()]*\))', t): yield m.start(), m.end(), 'None', 'None instead of Some'
    # premises of rules
    for m in re.finditer(r'(?<=[>:,\n]) ([^\n>|]{3,60}) ->(?=[ \n])', t): yield m.start(), m.end(), ' True ->', 'premise dropped: ' + m.group(1).strip()
    # calls left out: f x a where x has the type of the result
    for m in re.finditer(r"\((with_\w+|\w*set_\w+|\w*add_\w+|put_\w+|\w*_update\w*) (\w+) [^()\n]{1,40}\)", t): yield m.start(), m.end(), m.group(2), 'call of %s left out' % m.group(1)

def edits2(head, t):
    """edits of the body t of a definition: names exchanged, branches exchanged, parts left out"""
    names = set(re.findall(r"(?<![\w.'])([a-z]\w{0,9})(?= *:(?!=)|(?: [a-z]\w*)* : )", head)) | set(re.findall(r"let!? '?\(?([a-z]\w*)", t)) | set(re.findall(r'fun (\w+)', t))
    for a, b in re.findall(r'\(([a-z][\w ]*?) : ([^()]*)\)', head): names |= set(a.split())
    names = sorted(x for x in names if len(x) < 9 and x not in ('let', 'in', 'if', 'match', 'fun', 'forall', 'with'))
    for m in re.finditer(r"(?<![\w.'])([a-z]\w*)(?![\w.'])", t):
        if m.group(1) in names:
            for o in names:
                if o != m.group(1): yield m.start(), m.end(), o, 'name %s in place of %s' % (o, m.group(1))
    b = re.search(r':=\s*', t)
    for o in names: yield b.end(), len(t) - 1, o, 'the result is %s' % o
    for o in ('true', 'false', 'None', '[]', '0', 'Ret tt'): yield b.end(), len(t) - 1, o, 'the result is %s' % o
    br = list(re.finditer(r'=> ([^\n|]+?)(?=\s*(?:\n\s*\||\n\s*end|\| |end))', t))
    for i, x in enumerate(br):
        for y in br[i+1:]:
            if x.group(1) != y.group(1):
                yield x.start(1), y.end(1), y.group(1) + t[x.end(1):y.start(1)] + x.group(1), 'branches exchanged: %s, %s' % (x.group(1).strip()[:30], y.group(1).strip()[:30])
    caps = sorted(set(re.findall(r"(?<![\w.'])([A-Z]\w+)(?![\w.'])", t)))
    for m in re.finditer(r"(?<![\w.'])([A-Z]\w+)(?![\w.'])", t):
        for o in caps:
            if o != m.group(1): yield m.start(), m.end(), o, '%s in place of %s' % (o, m.group(1))
    for m in re.finditer(r"([\w']+|\([^()\n]*\)) :: ", t): yield m.start(), m.end(), '', 'element left out: ' + m.group(1)
    for m in re.finditer(r"([\w']+|\([^()\n]*\)) \+\+ ", t): yield m.start(), m.end(), '', 'list left out: ' + m.group(1)
    for m in re.finditer(r" \+\+ ([\w']+|\([^()\n]*\)|\[[^\[\]\n]*\])", t): yield m.start(), m.end(), '', 'list left out: ' + m.group(1)
    for m in re.finditer(r"\((\w+) ((?:[\w']+ )*)([\w']+)\)", t): yield m.start(), m.end(), m.group(3), 'call of %s left out' % m.group(1)
    for m in re.finditer(r" /\\ [^/\n]+?(?= /\\|\.$|\n)", t): yield m.start(), m.end(), '', 'left out: ' + m.group(0)

def gen2(out, n, seed, files):
    """as gen with edits2, at most n per definition, kept when the file still compiles"""
    rnd = random.Random(seed); res = []; work = out + '.d'
    # MUT_NEW: leave out definitions which have results in this file
    skip = {json.loads(l)['definition'].split()[0] for l in open(os.environ['MUT_NEW'])} if 'MUT_NEW' in os.environ else set()
    shutil.rmtree(work, ignore_errors=True); subprocess.run(['cp', '-a', os.path.join(SRC, 'theories'), work], check=True)
    for f in files:
        s = open(os.path.join(SRC, 'theories', f)).read(); c = blank_comments(s)
        hs = list(HEAD.finditer(c))
        for i, h in enumerate(hs):
            e = hs[i+1].start() if i + 1 < len(hs) else len(c)
            m = re.compile(r'\.(?=\s*\n)').search(c, h.start(), e)
            e = m.end() if m else e
            b = c.find(':=', h.start(), e)
            if b < 0: continue
            if h.group(0).split()[0] in ('Record', 'Class') or h.group(1) in skip: continue
            es = list(edits2(c[h.start():b], c[b:e])); rnd.shuffle(es)
            k = tries = 0; kinds = set()
            for x, y, new, what in es:
                if k >= n or tries >= 12 * n: break
                kind = what.split()[0]
                if kind in kinds: continue
                tries += 1
                t = s[:b+x] + new + s[b+y:]
                open(os.path.join(work, f), 'w').write(t)
                if subprocess.run(['timeout', '120', 'coqc', '-Q', '.', 'Verif', f], cwd=work, capture_output=True).returncode: continue
                k += 1; kinds.add(kind)
                res.append({'id': 'n_%s_%s_%d' % (f[5:-2].lower(), h.group(1), k), 'file': f, 'definition': h.group(1), 'at': b + x, 'end': b + y, 'new': new,
                            'edit': what, 'line': c[:b+x].count('\n') + 1, 'text': s[s.rfind('\n', 0, b+x)+1:s.find('\n', b+y)]})
        open(os.path.join(work, f), 'w').write(s); subprocess.run(['coqc', '-Q', '.', 'Verif', f], cwd=work, capture_output=True)
    shutil.rmtree(work); json.dump(res, open(out, 'w'), indent=0); print(len(res))

def gen(out, n, seed, files):
    rnd = random.Random(seed); res = []
    for f in files:
        s = open(os.path.join(SRC, 'theories', f)).read(); c = blank_comments(s)
        hs = list(HEAD.finditer(c))
        for i, h in enumerate(hs):
            e = hs[i+1].start() if i + 1 < len(hs) else len(c)
            m = re.compile(r'\.(?=\s*\n)').search(c, h.start(), e)
            e = m.end() if m else e
            b = c.find(':=', h.start(), e)
            if b < 0: continue
            es = list(edits(c[b:e])); rnd.shuffle(es)
            seen = set()
            for x, y, new, what in es:
                if len(seen) >= n: break
                k = what[:12]
                if k in seen: continue
                seen.add(k)
                res.append({'id': '%s_%s_%d' % (f[5:-2].lower() if f.startswith('Model') else f[:-2].lower(), h.group(1), len(seen)), 'file': f, 'definition': h.group(1),
                            'at': b + x, 'end': b + y, 'new': new, 'edit': what, 'line': c[:b+x].count('\n') + 1, 'text': s[s.rfind('\n', 0, b+x)+1:s.find('\n', b+y)]})
    json.dump(res, open(out, 'w'), indent=0); print(len(res))

def run(mutfile, work, results, k, m):
    muts = json.load(open(mutfile))
    done = {json.loads(l)['id'] for l in open(results)} if os.path.exists(results) else set()
    for i, x in enumerate(muts):
        if i % m != k or x['id'] in done: continue
        shutil.rmtree(work, ignore_errors=True)
        subprocess.run(['cp', '-a', SRC, work], check=True)
        p = os.path.join(work, 'theories', x['file']); s = open(p).read()
        open(p, 'w').write(s[:x['at']] + x['new'] + s[x['end']:])
        t0 = time.time()
        r = subprocess.run(['nice', 'timeout', '3000', 'make', '-j' + J], cwd=work, capture_output=True, text=True)
        o = r.stdout + r.stderr
        e = re.search(r'File "\./theories/([A-Za-z0-9]+\.v)", line (\d+)', o)
        st = {'id': x['id'], 'secs': int(time.time() - t0)}
        if r.returncode == 0: st['result'] = 'survived'
        elif not e: st['result'] = 'trouble'; st['out'] = o[-300:]
        elif e.group(1) == x['file']: st['result'] = 'invalid'
        else:
            src = open(os.path.join(work, 'theories', e.group(1))).read().split('\n'); j = int(e.group(2)) - 1
            while j >= 0 and not ANY.match(src[j]): j -= 1
            st['result'] = 'killed'; st['by'] = '%s: %s' % (e.group(1), ANY.match(src[j]).group(1) if j >= 0 else '?')
        with open(results, 'a') as f: f.write(json.dumps(st) + '\n')

if sys.argv[1] in ('gen', 'gen2'): globals()[sys.argv[1]](sys.argv[2], int(sys.argv[3]), int(sys.argv[4]), sys.argv[5:])
else: run(sys.argv[2], sys.argv[3], sys.argv[4], int(sys.argv[5]), int(sys.argv[6]))
