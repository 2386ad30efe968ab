#!/usr/bin/env python3
"""Applies wrong-program edits to a scratch copy of the model and rebuilds.
usage: mutate.py SCRATCHDIR BASEDIR (a built copy of rocq/)
Reads seeded/mutants.jsonl (file, definition, old, new, claim; a second
attempt at the same edit has retry and tightened; targets limits the build to
these files); appends to
seeded/LOG.jsonl. Never touches /verif/rocq."""
import json, os, re, subprocess, sys, shutil, hashlib
here = os.path.dirname(os.path.dirname(os.path.abspath(__file__)))
scratch, base = sys.argv[1:3]
log = os.path.join(here, "seeded/LOG.jsonl")
muts = [json.loads(l) for l in open(os.path.join(here, "seeded/mutants.jsonl"))]
done = set()
if os.path.exists(log):
    for l in open(log):
        d = json.loads(l)
        done.add(d.get("key"))
def sh(cmd, **k): return subprocess.run(cmd, shell=True, stdout=subprocess.PIPE, stderr=subprocess.STDOUT, text=True, **k)
def sync(): sh(f"rm -rf {scratch}; cp -a {base} {scratch}")
def lemma_at(path, line):
    name = None
    for i, l in enumerate(open(path), 1):
        if i > line: break
        m = re.match(r"\s*(?:Local )?(?:Lemma|Theorem|Example|Corollary|Definition|Fixpoint|Fact)\s+(\w+)", l)
        if m: name = m.group(1)
    return name
for m in muts:
    key = hashlib.md5((m["file"] + m["old"] + m["new"]).encode()).hexdigest()[:10]
    if "retry" in m: key += "-" + str(m["retry"])
    if key in done: continue
    sync()
    p = f"{scratch}/theories/{m['file']}.v"
    a = open(p).read()
    n = a.count(m["old"])
    if n != 1:
        print("BAD", m["definition"], m["old"], n); continue
    open(p, "w").write(a.replace(m["old"], m["new"]))
    targets = " ".join(f"theories/{t}.vo" for t in m.get("targets", []))
    r = sh(f"cd {scratch} && coq_makefile -f _CoqProject -o Makefile >/dev/null && timeout 3600 nice make -k -j2 COQC='timeout 900 coqc' {targets} 2>&1")
    failed, timeouts = [], []
    for f, ln in re.findall(r'File "\./theories/(\w+)\.v", line (\d+), characters [^\n]*\nError', r.stdout):
        failed.append(f + "." + str(lemma_at(f"{scratch}/theories/{f}.v", int(ln))))
    failed += [f + " (time limit)" for f in re.findall(r'theories/(\w+)\.vo\] Error 124', r.stdout)]
    failed = sorted(set(failed))
    blocked = sorted(set(f[:-2] for f in os.listdir(f"{scratch}/theories") if f.startswith("Prop") and f.endswith(".v") and ("targets" not in m or f[:-2] in m["targets"])
                         and not (os.path.exists(f"{scratch}/theories/{f[:-2]}.vo") and os.path.getmtime(f"{scratch}/theories/{f[:-2]}.vo") > os.path.getmtime(p))))
    e = dict(key=key, definition=f"{m['file']}.{m['definition']}", edit=f"{m['old']} -> {m['new']}", claim=m["claim"],
             failed=failed, property_files_not_built=blocked, caught=bool(failed), tightened=m.get("tightened", []))
    with open(log, "a") as f: f.write(json.dumps(e) + "\n")
    print(m["definition"], "->", failed if failed else "SURVIVED", flush=True)
