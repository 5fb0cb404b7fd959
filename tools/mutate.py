#!/usr/bin/env python3
"""Run the proofs against edited copies of the model.

usage: mutate.py MUTANTS.json OUT.jsonl [name ...]

A mutant is {"name", "file", "definition", "old", "new", "claim"}: [old] (which must occur once in
the file, or somewhere after the text in "after") is replaced with [new] in a scratch copy of rocq/.
The statements of all files are compiled first (coqc -vos), then the proofs of every file on their own
(coqc -vok): a lemma whose proof fails is recorded and left out, and the rest of its file is checked
too. A theorem of MANIFEST.json fails if its own proof or that of a lemma it uses (according to the
.glob files) does.
"""
import json, os, re, shutil, subprocess, sys, time
from concurrent.futures import ThreadPoolExecutor
SCRATCH = os.environ.get("MUT_SCRATCH", "/root/mut")
SRC = "/verif/rocq"
JOBS = int(os.environ.get("MUT_JOBS", "4"))
LIMIT = int(os.environ.get("MUT_LIMIT", "240"))
NOEX = os.environ.get("MUT_NOEX")  # leave out the files with concrete cases
BASE = SCRATCH + "/base"
IGN = shutil.ignore_patterns("*.vo*", "*.glob", ".*.aux", "Makefile*", ".Makefile*", ".*.cache")
HEAD = re.compile(r"^[ \t]*(?:Global |Local )?(Theorem|Lemma|Example|Corollary|Instance|Fact)\s+([\w']+)", re.M)
PROOF = re.compile(r"\bProof\b[^.]*\.")
END = re.compile(r"\b(Qed|Defined)\.")

def wait():
    """hold new compilations back while the file [pause] exists"""
    while os.path.exists(SCRATCH + "/pause"): time.sleep(1)
def sh(cmd, cwd, timeout=7200):
    wait()
    return subprocess.run(cmd, shell=True, cwd=cwd, capture_output=True, text=True, timeout=timeout)
def imports(f):
    imp = re.findall(r"From Verif Require (?:Export|Import)\s+([^.]*)\.", open(BASE + "/theories/%s.v" % f).read())
    return [g for x in imp for g in x.split()]
ORDER = []
def files():
    """the files, each after those it imports"""
    if ORDER: return ORDER
    l = [os.path.basename(l.strip())[:-2] for l in open(BASE + "/_CoqProject") if l.strip().endswith(".v")]
    def visit(f):
        if f in ORDER: return
        for g in imports(f): visit(g)
        ORDER.append(f)
    for f in l: visit(f)
    return ORDER

def setup():
    """a pristine copy in which every proof names the section variables it uses, with compiled statements,
    and the lemmas each lemma refers to"""
    meta = SCRATCH + "/meta.json"
    if os.path.exists(meta): return json.load(open(meta))
    shutil.rmtree(BASE, ignore_errors=True)
    shutil.copytree(SRC, BASE, ignore=IGN)
    t = BASE + "/theories"
    uses = {}
    for f in files():
        r = sh("coqc -Q . Verif -set 'Suggest Proof Using' %s.v" % f, t)
        assert r.returncode == 0, f + r.stderr[-2000:]
        using = dict(re.findall(r"The proof of ([\w']+)\s+should start with one of the following commands:\s+Proof using ([^.]*)\.", r.stdout + r.stderr))
        s = open(t + "/%s.v" % f).read()
        spans = [(m[2], m.start(), END.search(s, m.end())) for m in HEAD.finditer(s)]
        spans = [(n, a, e.end()) for n, a, e in spans if e]
        # references
        b = s.encode()
        off = {n: (len(s[:a].encode()), len(s[:e].encode())) for n, a, e in spans}
        for l in open(t + "/%s.glob" % f):
            m = re.match(r"R(\d+):\d+ (\S+) \S* ?(\S+) (thm|lem|def|prfax|inst|coe|ex|not)?", l)
            if not m: continue
            p = int(m[1])
            for n, (a, e) in off.items():
                if a <= p < e:
                    uses.setdefault(f + ":" + n, set()).add(m[2].replace("Verif.", "") + ":" + m[3].split(".")[-1])
        # proof using
        out, i = "", 0
        for n, a, e in spans:
            m = PROOF.search(s, a, e)
            if n in using and m and "using" not in m[0] and a >= i:
                out += s[i:m.start()] + "Proof using %s." % using[n].strip(); i = m.end()
        open(t + "/%s.v" % f, "w").write(out + s[i:])
    for f in files():
        for x in ("vo", "vos", "vok", "glob"):
            try: os.remove(t + "/%s.%s" % (f, x))
            except FileNotFoundError: pass
    deps = {}
    for f in files():
        deps[f] = imports(f)
        r = sh("coqc -vos -Q . Verif %s.v" % f, t)
        assert r.returncode == 0, f + r.stderr[-2000:]
    d = {"uses": {k: sorted(v) for k, v in uses.items()}, "deps": deps}
    json.dump(d, open(meta, "w"))
    return d

def downstream(f, deps):
    s = {f}
    for g in files():
        if set(deps[g]) & s: s.add(g)
    return [g for g in files() if g in s]

def hole(text, pos):
    """leave out the proof around character [pos]"""
    for m in reversed([m for m in HEAD.finditer(text) if m.start() <= pos]):
        p, e = PROOF.search(text, m.end()), END.search(text, m.end())
        if not p or not e or e.end() < pos: return None, text
        n = text[p.start():e.end()].count("\n")
        return m[2], text[:p.start()] + re.match(PROOF, text[p.start():])[0] + " Admitted." + "\n" * n + text[e.end():]
    return None, text

def check(d, f):
    """the proofs of one file"""
    if NOEX and "Ex" in f: return [], []
    p = d + "/theories/%s.v" % f
    failed, problems = [], []
    for it in range(80):
        wait()
        try:
            r = subprocess.run("timeout %d coqc -time -vok -Q . Verif %s.v" % (LIMIT, f), shell=True,
                               cwd=d + "/theories", capture_output=True)
        except Exception as e: return failed, [repr(e)]
        if r.returncode == 0: break
        raw = open(p, "rb").read()
        out = r.stdout.decode(errors="replace")
        m = re.findall(r'File "\./?%s\.v", line (\d+), characters (\d+)-\d+:\s*\nError' % f, r.stderr.decode(errors="replace"))
        if m:
            lines = raw.split(b"\n")
            off = sum(len(l) + 1 for l in lines[:int(m[-1][0]) - 1]) + int(m[-1][1])
        else:
            c = re.findall(r"^Chars \d+ - (\d+)", out, re.M)
            off = int(c[-1]) + 1 if c else 0
        text = raw.decode()
        name, t2 = hole(text, len(raw[:off].decode(errors="ignore")))
        if name is None: problems.append("%s:%d %s" % (f, off, r.stderr.decode(errors="replace")[-200:])); break
        open(p, "w").write(t2); failed.append(f + ":" + name)
        if "Ex" in f and len(failed) >= 2: problems.append(f + ": stopped after two"); break
    return failed, problems

def spread(failed, uses):
    """the lemmas that rest on the failed ones; a local notation for a lemma has the lemma's name"""
    bad = set(failed)
    while True:
        names = {b.split(":")[1] for b in bad}
        new = {k for k, v in uses.items() if k not in bad and
               any(x in bad or (x not in uses and x.split(":")[1] in names) for x in v)}
        if not new: return bad
        bad |= new

def run(mut, meta, manifest):
    d = SCRATCH + "/work" + os.environ.get("MUT_ID", "")
    shutil.rmtree(d, ignore_errors=True)
    sh("cp -a %s %s" % (BASE, d), "/")
    p = d + "/theories/" + mut["file"]
    s = open(p).read()
    i = s.index(mut["after"]) if mut.get("after") else 0
    n = s[i:].count(mut["old"])
    if n < 1 or (n != 1 and not mut.get("after")):
        return {"error": "old occurs %d times" % n}
    s = s[:i] + s[i:].replace(mut["old"], mut["new"], 1)
    open(p, "w").write(s)
    fs = downstream(mut["file"][:-2], meta["deps"])
    problems = []
    todo, finished = list(fs), set(files()) - set(fs)
    while todo:
        ready = [f for f in todo if set(meta["deps"][f]) <= finished]
        with ThreadPoolExecutor(JOBS) as ex:
            rs = list(ex.map(lambda f: sh("coqc -vos -Q . Verif %s.v" % f, d + "/theories"), ready))
        for f, r in zip(ready, rs):
            if r.returncode: return {"error": "%s does not compile: %s" % (f, r.stderr[-500:])}
        finished |= set(ready); todo = [f for f in todo if f not in finished]
    fs.sort(key=lambda f: -os.path.getsize(d + "/theories/%s.v" % f))
    with ThreadPoolExecutor(JOBS) as ex:
        res = list(ex.map(lambda f: check(d, f), fs))
    failed = [x for a, _ in res for x in a]
    problems = [x for _, b in res for x in b]
    bad = spread(failed, meta["uses"])
    thms = sorted({t for c in manifest["claims"] for t in c["theorems"]})
    names = {b.split(":")[1] for b in bad}
    return {"failed": failed, "theorems": [t for t in thms if t in names], "problems": problems}

def main():
    muts = json.load(open(sys.argv[1]))
    manifest = json.load(open("/verif/MANIFEST.json"))
    names = sys.argv[3:]
    meta = setup()
    done = {json.loads(l)["name"] for l in open(sys.argv[2])} if os.path.exists(sys.argv[2]) else set()
    for m in muts:
        if names and m["name"] not in names: continue
        if not names and m["name"] in done: continue
        try: res = run(m, meta, manifest)
        except Exception as e: res = {"error": repr(e)}
        with open(sys.argv[2], "a") as f:
            f.write(json.dumps({"name": m["name"], **res}) + "\n")
        print(m["name"], json.dumps(res)[:600], flush=True)
if __name__ == "__main__": main()
