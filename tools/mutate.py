#!/usr/bin/env python3
"""Try wrong programs: for every entry of a list of edits, copy rocq/ to a scratch
directory, apply the edit to the model, rebuild, and report which lemmas fail.

Statements are compiled without proofs first (coq's vos mode); then the proofs of the
files that the claimed properties rest on are checked (vok mode). When a proof fails
it is admitted in the scratch copy and the file is checked again, so the report lists
every failing lemma of those files, not just the first. The theorems of the property
files that rest on a failing lemma, directly or indirectly, are found through the
references recorded in the .glob files of the unchanged build.

usage: mutate.py EDITS.json RESULTS.jsonl
EDITS.json: list of {"id", "file", "definition", "old", "new", "edit", "claim"}
"""
import bisect, json, os, re, shutil, subprocess, sys
SRC = os.environ.get("MUT_SRC", "/tmp/mut/base")
WORK = os.environ.get("MUT_WORK", "/tmp/mut/work")
JOBS = os.environ.get("MUT_JOBS", "3")
HEAD = r"\s*(?:#\[\w+\] )?(?:Local |Global )?(?:Lemma|Theorem|Example|Corollary|Definition|Fixpoint|Instance|Inductive|Record)\s+(\w+)"
def name_at(path, line):
    name = "?"
    for k, l in enumerate(open(path), 1):
        m = re.match(HEAD, l)
        if m: name = m.group(1)
        if k >= line: break
    return name
def admit(path, line):
    """Replace the proof around a line by Admitted; False if the line is in no proof."""
    s = open(path).read()
    pos = sum(len(l) for l in s.splitlines(True)[:line - 1])
    end = pos + len(s.splitlines(True)[line - 1])
    starts = [m.start() for m in re.finditer(r"\bProof\b[^.]*\.", s) if m.start() < end]
    ends = [m for m in re.finditer(r"\b(?:Qed|Defined)\.", s) if m.end() > pos]
    if not starts or not ends: return False
    a, b = starts[-1], ends[0]
    if re.search(r"\b(?:Qed|Defined|Admitted)\.", s[a:b.start()]): return False
    keep = "\n" * s[a:b.end()].count("\n")
    t = os.stat(path)
    open(path, "w").write(s[:a] + "Admitted." + keep + s[b.end():])
    os.utime(path, ns=(t.st_atime_ns, t.st_mtime_ns))
    return True
def graph():
    users, uses = {}, {}
    for f in os.listdir(f"{SRC}/theories"):
        if not f.endswith(".glob"): continue
        defs, refs = [], []
        for l in open(f"{SRC}/theories/{f}"):
            m = re.match(r"(?:prf|def|inst|rec|ind|ex|thm|coe) (\d+):\d+ \S+ (\w+)", l)
            if m: defs.append((int(m.group(1)), m.group(2)))
            m = re.match(r"R(\d+):\d+ Verif\.(\w+) \S+ (\w+) (?:thm|def|inst|lemma|prf)", l)
            if m: refs.append((int(m.group(1)), f"{m.group(2)}.{m.group(3)}"))
        defs.sort()
        starts = [d[0] for d in defs]
        for off, tgt in refs:
            k = bisect.bisect_right(starts, off) - 1
            if k >= 0:
                u = f"{f[:-5]}.{defs[k][1]}"
                users.setdefault(tgt, set()).add(u)
                uses.setdefault(u, set()).add(tgt)
    return users, uses
def cone(g, start):
    seen, todo = set(start), list(start)
    while todo:
        for u in g.get(todo.pop(), ()):
            if u not in seen: seen.add(u); todo.append(u)
    return seen
users, uses = graph()
order = [l.strip()[9:-2] for l in open(f"{SRC}/_CoqProject") if l.startswith("theories/")]
edits = json.load(open(sys.argv[1]))
done = set()
if os.path.exists(sys.argv[2]):
    done = {json.loads(l)["id"] for l in open(sys.argv[2])}
ERR = r'File "\./theories/(\w+)\.v", line (\d+), characters [^\n]*:\n(?:Error|Timeout)'
for e in edits:
    if e["id"] in done: continue
    shutil.rmtree(WORK, ignore_errors=True)
    subprocess.run(["cp", "-a", SRC, WORK], check=True)
    p = f"{WORK}/theories/{e['file']}"
    s = open(p).read()
    if s.count(e["old"]) < 1:
        open(sys.argv[2], "a").write(json.dumps(dict(e, status="bad edit")) + "\n"); continue
    i = -1
    for _ in range(e.get("nth", 0) + 1): i = s.index(e["old"], i + 1)
    s = s[:i] + e["new"] + s[i + len(e["old"]):]
    open(p, "w").write(s)
    def run(t):
        return subprocess.run(f"ulimit -v 9000000; nice -n 5 timeout 1500 make -k -j{JOBS} COQEXTRAFLAGS='-set \"Default Timeout=120\"' {t} 2>&1", shell=True, cwd=WORK, capture_output=True, text=True).stdout
    claims = e["claim"].split()
    tops = [x for x in uses if re.match(r"\w+\.(C\d+)_", x) and x.split(".")[1].split("_")[0] in claims]
    lemmas = cone(uses, tops)
    files = [f for f in order if any(x.startswith(f + ".") for x in lemmas)]
    fails = []
    def note(f, line):
        n = f"{f}." + name_at(f"{WORK}/theories/{f}.v", line)
        if n not in fails: fails.append(n)
    out = run(" ".join(f"theories/{f}.vos" for f in files) or "vos")
    bad = [(m.group(1), int(m.group(2))) for m in re.finditer(ERR, out)]
    for f, line in bad: note(f, line)
    if not bad:
        todo = files or ["?"]
        for _ in range(60):
            out = run(" ".join(f"theories/{f}.vok" for f in todo))
            bad = [(m.group(1), int(m.group(2))) for m in re.finditer(ERR, out)]
            if not bad or not todo: break
            todo = []
            for f, line in bad:
                note(f, line)
                if admit(f"{WORK}/theories/{f}.v", line): todo.append(f)
            if not todo: break
    down = cone(users, fails)
    thms = sorted(x.split(".")[1] for x in down if re.search(r"\.C\d+_", x))
    open(sys.argv[2], "a").write(json.dumps({"id": e["id"], "failed": fails, "theorems": thms, "survived": not fails}) + "\n")
