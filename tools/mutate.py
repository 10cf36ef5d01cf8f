#!/usr/bin/env python3
"""Seed a bug in a scratch copy of the model and see which theorems stop proving.

usage: mutate.py FILE.json   (list of {"file","old","new","definition","edit","claim"})

For every entry the development is copied to /tmp/mutPID, the edit is applied and the
build is repeated; each proof that fails is replaced by Admitted until the build ends.
A property theorem counts as failed when Print Assumptions shows it rests on one of
the admitted proofs (or it is one).  One line per entry is appended to
/verif/seeded/LOG.jsonl unless --dry is given.
"""
import json, os, re, shutil, subprocess, sys

# a built copy of the last commit when there is one, so that only what depends on the edit is rebuilt
SRC = '/tmp/mutbase' if os.path.isdir('/tmp/mutbase') else '/verif/rocq'
LOG = '/verif/seeded/LOG.jsonl'
MUT = '/tmp/mut%d' % os.getpid()

def sh(cmd, cwd):
    return subprocess.run(cmd, cwd=cwd, shell=True, capture_output=True, text=True)

def enclosing(text, pos):
    best = None
    for m in re.finditer(r'(?m)^(?:Lemma|Theorem|Example|Corollary)\s+([\w\']+)', text):
        if m.start() <= pos:
            best = m
    return best

def admit(path, line=None, pos=None):
    text = open(path).read()
    lines = text.split('\n')
    if pos is None:
        pos = sum(len(l) + 1 for l in lines[:line - 1]) + len(lines[line - 1])
    m = enclosing(text, pos)
    if not m:
        return None
    q = re.compile(r'\b(Qed|Defined)\.').search(text, m.start())
    p = re.compile(r'\bProof(?: using[^.]*)?\.').search(text, m.start())
    if not p or not q or p.start() > q.start():
        return None
    text = text[:p.end() if 'using' in p.group(0) else p.start()] + ' Admitted.' + text[q.end():]
    open(path, 'w').write(text)
    return m.group(1)

def main():
    dry = '--dry' in sys.argv
    for e in json.load(open([a for a in sys.argv[1:] if not a.startswith('--')][0])):
        shutil.rmtree(MUT, ignore_errors=True)
        shutil.copytree(SRC, MUT)
        p = MUT + '/theories/' + e['file']
        t = open(p).read()
        if t.count(e['old']) < 1:
            print('NO MATCH', e['definition'], e['edit']); continue
        open(p, 'w').write(t.replace(e['old'], e['new'], e.get('count', 1)))
        sh('coq_makefile -f _CoqProject -o Makefile', MUT)
        admitted, broken = [], None
        while True:
            r = sh('make -j4 COQC="timeout 150 coqc" 2>&1', MUT)
            if r.returncode == 0:
                break
            slow = re.search(r'(theories/\w+)\.vo\] Error 124', r.stdout)
            if slow:
                f = slow.group(1) + '.v'
                o = sh(f'timeout 150 coqc -time -Q theories Verif {f}', MUT).stdout
                ch = re.findall(r'Chars \d+ - (\d+)', o)
                raw = open(MUT + '/' + f, 'rb').read()
                n = admit(MUT + '/' + f, pos=len(raw[:int(ch[-1]) + 2].decode(errors='ignore')) if ch else 0)
                if n is None:
                    broken = 'timeout'; break
                admitted.append((os.path.basename(f), n)); continue
            m = re.search(r'File "\./(theories/\w+\.v)", line (\d+), characters [\d-]+:\s*\nError', r.stdout)
            if not m:
                broken = r.stdout[-400:]; break
            n = admit(MUT + '/' + m.group(1), int(m.group(2)))
            if n is None:
                broken = r.stdout[-400:]; break
            admitted.append((os.path.basename(m.group(1)), n))
        failed = []
        if broken is None:
            mods = [os.path.basename(f)[:-2] for f in open(MUT + '/_CoqProject').read().split() if f.endswith('Props.v')]
            # only what was built again can rest on an admitted proof
            mods = [m for m in mods if admitted and os.path.getmtime(f'{MUT}/theories/{m}.vo') != os.path.getmtime(f'{SRC}/theories/{m}.vo')]
            for mod in mods:
                txt = open(f'{SRC}/theories/{mod}.v').read()
                names = re.findall(r'(?m)^Theorem\s+([\w\']+)', txt)
                q = f'From Verif Require Import {mod}.\n' + ''.join(f'Print Assumptions {n}.\n' for n in names)
                open(MUT + '/Q.v', 'w').write(q)
                out = sh('coqc -Q theories Verif Q.v', MUT).stdout
                blocks = re.split(r'(?m)^(?=Closed under|Axioms:)', out)
                blocks = [b for b in blocks if b.strip()]
                for n, b in zip(names, blocks):
                    if b.startswith('Axioms:') or any(a[1] == n for a in admitted):
                        failed.append(n)
        rec = {'definition': e['definition'], 'file': 'rocq/theories/' + e['file'], 'edit': e['edit'],
               'claim': e['claim'], 'failed': failed, 'failed_lemmas': [a[1] for a in admitted],
               'tightened': e.get('tightened', [])}
        if broken: rec['build'] = 'model no longer type checks: ' + broken
        print(json.dumps(rec))
        if not dry:
            with open(LOG, 'a') as f: f.write(json.dumps(rec) + '\n')

main()

shutil.rmtree(MUT, ignore_errors=True)
