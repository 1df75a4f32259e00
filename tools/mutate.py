#!/usr/bin/env python3
"""Tests the theorems against wrong programs, in a scratch copy outside /verif.

usage: mutate.py seeds.json [name ...]

Each seed edits one definition of the model.  Every proof that then fails is cut
out (Admitted, in the scratch copy only) until the rest compiles; a theorem of
the manifest has failed if it was cut out itself or depends on a lemma that was.
One line per seed goes to /tmp/mut/result.jsonl.  Several runs can go side by side
(MUT_ID tells them apart; MUT_PREPARED=1 takes the compiled copy as it is); each
seed is claimed by the first run that comes to it.
"""
import json, os, re, subprocess, sys, shutil, time

SRC = "/verif/rocq"
BASE = "/tmp/mut/base"      # compiled copy of the true model
WORK = "/tmp/mut/work" + os.environ.get("MUT_ID", "")   # several runs side by side
BUDGET = 1200               # seconds, then the theorems found so far are reported

def sh(cmd, **kw):
    return subprocess.run(cmd, shell=True, stdout=subprocess.PIPE, stderr=subprocess.STDOUT, universal_newlines=True, **kw)

def prepare():
    os.makedirs(BASE, exist_ok=True)
    os.makedirs(BASE + "/theories", exist_ok=True)
    names = ["_CoqProject"] + ["theories/" + f for f in os.listdir(SRC + "/theories") if f.endswith(".v")]
    for n in names:
        new = open(SRC + "/" + n, "rb").read()
        if not os.path.exists(BASE + "/" + n) or open(BASE + "/" + n, "rb").read() != new: open(BASE + "/" + n, "wb").write(new)
    shutil.copy("/verif/MANIFEST.json", BASE + "/MANIFEST.json")
    r = sh("cd %s && coq_makefile -f _CoqProject -o Makefile && make -j4" % BASE)
    if r.returncode:
        print(r.stdout[-2000:]); sys.exit(1)

START = re.compile(r"^\s*(?:Local |Global |#\[[^\]]*\] )?(Theorem|Lemma|Example|Corollary|Fact|Instance|Definition)\s+([\w']+)", re.M)

def cut(path, offset):
    """Replaces the proof around a character offset by Admitted; returns its name."""
    s = open(path, encoding="utf-8").read()
    heads = [m for m in re.finditer(r"^(Theorem|Lemma|Example|Corollary|Definition|Fixpoint)\s+([\w']+)", s, re.M) if m.start() <= offset]
    if not heads: return None
    h = heads[-1]
    if h.group(1) in ("Fixpoint",): return None
    q = re.compile(r"\b(Qed|Defined)\.").search(s, offset)
    p = re.compile(r"^\s*Proof\b", re.M).search(s, h.start())
    nxt = re.compile(r"^(Theorem|Lemma|Example|Corollary|Definition|Fixpoint)\s", re.M).search(s, h.end())
    if not p or (nxt and p.start() > nxt.start()): return None
    q = re.compile(r"\b(Qed|Defined)\.").search(s, p.start())
    s = s[:p.start()] + "\nAdmitted." + s[q.end():]
    open(path, "w", encoding="utf-8").write(s)
    return h.group(2)

def offset_of(path, line, col):
    b = open(path, "rb").read().split(b"\n")
    n = sum(len(x) + 1 for x in b[:line - 1]) + col
    return len(b"\n".join(b)[:n].decode("utf-8", "ignore"))

def theorems():
    names = []
    for c in json.load(open(BASE + "/MANIFEST.json"))["claims"]: names += c["theorems"]
    where = {}
    for f in sorted(os.listdir(BASE + "/theories")):
        if f.endswith(".v"):
            for m in START.finditer(open(BASE + "/theories/" + f).read()):
                if f.startswith("Props"): where.setdefault(m.group(2), f[:-2])
    return [(where[n], n) for n in names if n in where]

def run(seed):
    sh("rm -rf %s && cp -a %s %s" % (WORK, BASE, WORK))
    path = WORK + "/theories/" + seed["file"]
    s = open(path).read()
    if s.count(seed["old"]) != 1 and not seed.get("all"):
        return dict(seed, outcome="bad edit: %d occurrences" % s.count(seed["old"]))
    open(path, "w").write(s.replace(seed["old"], seed["new"]))
    cuts = []
    t0 = time.time()
    while True:
        direct = sorted(set(c.split(".")[1].split(" ")[0] for c in cuts) & set(n for _, n in theorems()))
        if time.time() - t0 > BUDGET and direct:
            return dict(seed, outcome="caught", failed=direct, cuts=cuts, seconds=round(time.time() - t0), complete=False)
        r = sh("cd %s && make -k -j2 COQC='timeout 300 coqc' 2>&1" % WORK)
        if r.returncode == 0: break
        hit = False
        for m in re.finditer(r'File "\./theories/(\w+)\.v", line (\d+), characters (\d+)-(\d+):\n(Error)', r.stdout):
            f = WORK + "/theories/%s.v" % m.group(1)
            if f == path and not re.search(r"Proof", open(f).read()):
                return dict(seed, outcome="does not compile: " + r.stdout[-600:])
            n = cut(f, offset_of(f, int(m.group(2)), int(m.group(3))))
            if n is None: return dict(seed, outcome="cannot cut %s: %s" % (m.group(0), r.stdout[m.start():m.start()+600]), cuts=cuts)
            cuts.append(m.group(1) + "." + n); hit = True
        if not hit:
            # a proof that runs for ever: find it by timing
            done = False
            for m in re.finditer(r"theories/(\w+)\.vo\] Error 124", r.stdout):
                f = WORK + "/theories/%s.v" % m.group(1)
                t = sh("cd %s && timeout 200 coqc -time -Q theories Verif theories/%s.v" % (WORK, m.group(1)))
                ends = re.findall(r"Chars (\d+) - (\d+)", t.stdout)
                off = int(ends[-1][1]) if ends else 0
                off = len(open(f, "rb").read()[:off].decode("utf-8", "ignore")) + 2
                n = cut(f, off)
                if n is None: return dict(seed, outcome="timeout in " + m.group(1), cuts=cuts)
                cuts.append(m.group(1) + "." + n + " (time)"); done = True
            if not done: return dict(seed, outcome="make: " + r.stdout[-800:], cuts=cuts)
        if len(cuts) > 400: return dict(seed, outcome="too many", cuts=cuts)
    # only what was compiled again can have changed
    ths = [(m, n) for m, n in theorems() if os.path.getmtime(WORK + "/theories/" + m + ".vo") >= t0]
    mods = sorted(set(m for m, _ in ths))
    with open(WORK + "/theories/Chk.v", "w") as o:
        o.write("".join("From Verif Require %s.\n" % m for m in mods))
        for m, n in ths: o.write('Goal True. idtac "@@%s". Abort.\nPrint Assumptions %s.%s.\n' % (n, m, n))
    r = sh("cd %s && coqc -Q theories Verif theories/Chk.v" % WORK)
    if r.returncode: return dict(seed, outcome="check: " + r.stdout[-500:], cuts=cuts)
    failed = [n for n, body in re.findall(r"@@([\w']+)\n(.*?)(?=@@|\Z)", r.stdout, re.S) if "Closed under" not in body.split("\n")[0]]
    return dict(seed, outcome="caught" if failed else "SURVIVED", failed=failed, cuts=cuts, seconds=round(time.time() - t0))

if __name__ == "__main__":
    seeds = json.load(open(sys.argv[1]))
    if len(sys.argv) > 2: seeds = [s for s in seeds if s["name"] in sys.argv[2:]]
    if not os.environ.get("MUT_PREPARED"): prepare()
    os.makedirs("/tmp/mut/claimed", exist_ok=True)
    for s in seeds:
        try: os.close(os.open("/tmp/mut/claimed/" + s["name"], os.O_CREAT | os.O_EXCL))
        except FileExistsError: continue
        res = run(s)
        with open("/tmp/mut/result.jsonl", "a") as o: o.write(json.dumps(res) + "\n")
        print(s["name"], res["outcome"][:700], len(res.get("failed", [])), res.get("failed", [])[:60], "cuts", len(res.get("cuts", [])), res.get("seconds"), flush=True)
