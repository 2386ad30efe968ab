#!/usr/bin/env python3
"""Makes one small wrong edit in each definition of the model that has fewer than
TIMES in seeded/LOG.jsonl, in a scratch copy, and rebuilds until the first failure.
usage: automutate.py SCRATCHDIR BASEDIR SECONDS SEED [TIMES] (BASEDIR: a built copy of rocq/)
Appends to seeded/LOG.jsonl. Never touches /verif/rocq."""
import json, os, re, subprocess, sys, random, time, hashlib
here = os.path.dirname(os.path.dirname(os.path.abspath(__file__)))
scratch, base, seconds, seed = sys.argv[1], sys.argv[2], int(sys.argv[3]), int(sys.argv[4])
times = int(sys.argv[5]) if len(sys.argv) > 5 else 1
log = os.path.join(here, "seeded/LOG.jsonl")
start = time.time()
FILES = "Unmarshal Lex Api Copy Merge Keep Text Docx Pack Rels Alias Marshal Bufio Theme Slices Conc Par XmlTok Lib Num GoStr".split()
def sh(cmd): return subprocess.run(cmd, shell=True, stdout=subprocess.PIPE, stderr=subprocess.STDOUT, text=True)
def seen():
    s, k = {}, set()
    for l in open(log):
        d = json.loads(l)
        s[d["definition"]] = s.get(d["definition"], 0) + 1
        k.add(d.get("key"))
    return s, k
def key_of(f, name, x, new): return hashlib.md5((f + name + str(x) + new).encode()).hexdigest()[:10]
RULES = [
  (r'"([^"\n]+)"', lambda m: '"%sx"' % m.group(1)),
  (r'(?<![\w."])(\d+)(?![\w"])', lambda m: str(int(m.group(1)) + 1)),
  (r'\btrue\b', lambda m: "false"), (r'\bfalse\b', lambda m: "true"),
  (r'\bel \w+ \(\w+ x\) \+\+\s*', lambda m: ""),
  (r'\bel \(\w+ \(\w+ "\w+"\)\) \(\w+ x\) \+\+\s*', lambda m: ""),
  (r'\bati?o? \(\w+ "\w+"\) \(\w+ x\) \+\+\s*', lambda m: ""),
  (r'&&', lambda m: "||"), (r'\|\|', lambda m: "&&"),
  (r'<\?', lambda m: "<=?"), (r'\bGt\b', lambda m: "Lt"),
  (r'\bnegb ', lambda m: ""), (r'\bfst\b', lambda m: "snd"), (r'\bsnd\b', lambda m: "fst"),
  (r'\brev ', lambda m: ""), (r'\bS n\b', lambda m: "n"),
  (r'\((\w+) \+\+ (\[\w+\])\)', lambda m: "(%s ++ %s)" % (m.group(2), m.group(1))),
  (r'\bPanic\b', lambda m: 'Err "x"'), (r'\bErr (\w+)', lambda m: "Panic"),
  (r'\b(set_\w+) \(Some ([^()]*|\([^()]*\))\)', lambda m: "%s None" % m.group(1)),
  (r'\b(u_\w+)\b', None), (r'\bthen_skip\b', None),
]
def lemma_at(path, line):
    name = None
    for i, l in enumerate(open(path), 1):
        if i > line: break
        m = re.match(r"\s*(?:Local )?(?:Lemma|Theorem|Example|Corollary|Definition|Fixpoint|Fact)\s+(\w+)", l)
        if m: name = m.group(1)
    return name
def strip_comments(a):
    out, d, i = [], 0, 0
    while i < len(a):
        if a[i:i+2] == "(*": d += 1; out.append("  "); i += 2; continue
        if a[i:i+2] == "*)": d -= 1; out.append("  "); i += 2; continue
        out.append(a[i] if d == 0 or a[i] == "\n" else " "); i += 1
    return "".join(out)
rng = random.Random(seed)
todo = []
for f in FILES:
    a = open(f"{base}/theories/{f}.v").read(); b = strip_comments(a)
    ms = list(re.finditer(r"(?:^|\n)[ ]*(Definition|Fixpoint|with|Lemma|Theorem|Record|Inductive|Section|End|Local|Arguments|Ltac|Notation)\s+(\w+)", b))
    for i, m in enumerate(ms):
        if m.group(1) not in ("Definition", "Fixpoint", "with"): continue
        e = ms[i+1].start() if i + 1 < len(ms) else len(b)
        todo.append((f, m.group(2), m.end(), e))
rng.shuffle(todo)
c0 = seen()[0]
todo.sort(key=lambda t: c0.get(t[0] + "." + t[1], 0))
for f, name, s, e in todo:
    if time.time() - start > seconds: break
    count, keys = seen()
    if count.get(f + "." + name, 0) >= times: continue
    a = open(f"{base}/theories/{f}.v").read(); b = strip_comments(a)
    cands = []
    for r, g in RULES:
        if g is None: continue
        for m in re.finditer(r, b[s:e]): cands.append((s + m.start(), s + m.end(), g(m)))
    cands = [c for c in cands if key_of(f, name, c[0], c[2]) not in keys]
    rng.shuffle(cands)
    for x, y, new in cands[:4]:
        sh(f"rm -rf {scratch}; cp -a {base} {scratch}")
        p = f"{scratch}/theories/{f}.v"
        open(p, "w").write(a[:x] + new + a[y:])
        r = sh(f"cd {scratch} && timeout 600 coqc -Q theories Verif theories/{f}.v")
        if r.returncode == 0: break
    else: continue
    r = sh(f"cd {scratch} && coq_makefile -f _CoqProject -o Makefile >/dev/null && timeout 3000 nice make -j3 COQC='timeout 900 coqc' 2>&1")
    failed = []
    for ff, ln in re.findall(r'File "\./theories/(\w+)\.v", line (\d+), characters [^\n]*\nError', r.stdout):
        failed.append(ff + "." + str(lemma_at(f"{scratch}/theories/{ff}.v", int(ln))))
    failed += [ff + " (time limit)" for ff in re.findall(r'theories/(\w+)\.vo\] Error 124', r.stdout)]
    failed = sorted(set(failed))
    if r.returncode == 124 and not failed: print(name, "-> no result in time", flush=True); continue
    ctx = " ".join(a[max(s, x-60):x].split()) + " <" + a[x:y] + " -> " + new + "> " + " ".join(a[y:min(e, y+40)].split())
    key = key_of(f, name, x, new)
    d = dict(key=key, definition=f"{f}.{name}", edit=ctx, claim="first theorems to fail; the build stops there", failed=failed, caught=bool(failed), tightened=[])
    with open(log, "a") as h: h.write(json.dumps(d) + "\n")
    print(f"{f}.{name}", "|", ctx, "->", failed if failed else "SURVIVED", flush=True)
