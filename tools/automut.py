#!/usr/bin/env python3
"""Look for small edits of the model that no proof notices.

usage: automut.py gen MUTANTS.json          list single-token edits of all definitions in M*.v
       automut.py run MUTANTS.json OUT.jsonl [k n]   run those numbered k modulo n

Each edit is built in a scratch copy, without the examples, until the first proof fails. An edit that
survives is either equivalent to the original or not covered by any theorem.
"""
import glob, json, os, re, shutil, subprocess, sys, time
SCRATCH = os.environ.get("AM_SCRATCH", "/root/am")
SRC = "/verif/rocq"
PAUSE = "/root/mut/pause"
EX = re.compile(r"(Ex|PExample)\.v$")
OPS = [
    (r"<\?", ["<=?"]), (r"<=\?", ["<?"]), (r"(?<![<])=\?", ["<=?"]), (r"&&", ["||"]), (r"\|\|", ["&&"]),
    (r"\bnegb\b", ["id"]), (r"\+ 1\b", ["+ 0", "+ 2"]), (r"- 1\b", ["- 0", "- 2"]), (r"(?<=[\w)]) \+ (?=[\w(])", [" - "]),
    (r"(?<=[\w)]) - (?=[\w(])", [" + "]), (r"(?<=[\w)]) \* (?=[\w(])", [" + "]),
    (r"\btrue\b", ["false"]), (r"\bfalse\b", ["true"]), (r"\bRCurrent\b", ["RPrev"]), (r"\bRPrev\b", ["RCurrent"]),
    (r"\btake\b", ["drop"]), (r"\bdrop\b", ["take"]), (r"\bmax\b", ["min"]), (r"\bmin\b", ["max"]), (r"\bN\.max\b", ["N.min"]),
    (r"\bN\.min\b", ["N.max"]), (r"\bNone\b(?!\s*=>)", []), (r"\bmx_or_events m \w+", ["m"]),
    (r"(?<![\w.'])\d+(?![\w.])", ["INC"]), (r"\bif (?!decide)([^;\n]*?) then", ["NEG"]), (r"\bSome \w+(?!\s*=>)", ["None"]),
    (r"\breverse\b", [""]), (r"\brev\b", [""]), (r"\bsaturating_sub\b", ["N.add"]), (r"\bOk tt\b", []),
]
def strip(s):
    """comments and strings blanked"""
    out, d, i = list(s), 0, 0
    while i < len(s):
        if s.startswith("(*", i): d += 1; out[i] = out[i+1] = " "; i += 2; continue
        if s.startswith("*)", i) and d: d -= 1; out[i] = out[i+1] = " "; i += 2; continue
        if d and s[i] != "\n": out[i] = " "
        i += 1
    return "".join(out)
DEF = re.compile(r"^[ \t]*(?:Local |Global )?(Definition|Fixpoint|Inductive|Record|Notation|Instance|Lemma|Context|Section|End|Proof|From|Arguments)\b\s*([\w']*)", re.M)
def gen(out):
    muts = []
    for f in sorted(os.listdir(SRC + "/theories")):
        if not re.match(r"M\w+\.v$", f): continue
        s = open(SRC + "/theories/" + f).read(); t = strip(s)
        heads = list(DEF.finditer(t))
        for k, h in enumerate(heads):
            if h[1] not in ("Definition", "Fixpoint"): continue
            a = t.find(":=", h.end()); e = heads[k+1].start() if k + 1 < len(heads) else len(t)
            if a < 0 or a > e: continue
            for pat, news in OPS:
                for m in re.finditer(pat, t[a:e]):
                    for new in news:
                        if new == "INC": new = str(int(m[0]) + 1)
                        if new == "NEG": new = "if negb (%s) then" % m[1]
                        muts.append({"file": f, "definition": h[2], "pos": a + m.start(), "old": s[a+m.start():a+m.end()], "new": new,
                                     "line": s[:a+m.start()].count("\n") + 1})
    for i, m in enumerate(muts): m["name"] = "a%04d" % i
    json.dump(muts, open(out, "w"), indent=0)
    print(len(muts))
def wait():
    while os.path.exists(PAUSE): time.sleep(1)
def base():
    b = SCRATCH + "/base"
    if os.path.exists(b + "/ready"): return b
    shutil.rmtree(b, ignore_errors=True)
    shutil.copytree(SRC, b, ignore=shutil.ignore_patterns("*.vo*", "*.glob", ".*.aux", "Makefile*", ".Makefile*", ".*.cache"))
    l = [x for x in open(b + "/_CoqProject").read().split("\n") if not EX.search(x.strip())]
    open(b + "/_CoqProject", "w").write("\n".join(l))
    subprocess.run("coq_makefile -f _CoqProject -o Makefile && make -j3", shell=True, cwd=b, check=True, capture_output=True)
    open(b + "/ready", "w").write("")
    return b
def run(muts, out, k, n):
    b = base()
    done = {json.loads(l)["name"] for o in [out] + glob.glob(SCRATCH + "/all*.jsonl") if os.path.exists(o) for l in open(o)}
    w = SCRATCH + "/work%d" % k
    for i, m in enumerate(muts):
        if i % n != k or m["name"] in done: continue
        wait()
        shutil.rmtree(w, ignore_errors=True)
        subprocess.run(["cp", "-a", b, w], check=True)
        p = w + "/theories/" + m["file"]
        s = open(p).read()
        assert s[m["pos"]:m["pos"]+len(m["old"])] == m["old"], m
        open(p, "w").write(s[:m["pos"]] + m["new"] + s[m["pos"]+len(m["old"]):])
        t0 = time.time()
        r = subprocess.run("timeout 60 coqc -Q . Verif %s" % m["file"], shell=True, cwd=w + "/theories", capture_output=True, text=True)
        if r.returncode: res = {"result": "ill-typed"}
        else:
            r = subprocess.run("timeout 1800 make", shell=True, cwd=w, capture_output=True, text=True)
            if r.returncode == 0: res = {"result": "SURVIVED"}
            elif r.returncode == 124: res = {"result": "timeout"}
            else:
                x = re.findall(r'File "\./theories/(\w+)\.v", line (\d+)', r.stderr)
                where = ""
                if x:
                    src = open(w + "/theories/%s.v" % x[-1][0]).read().split("\n")
                    for j in range(int(x[-1][1]) - 1, -1, -1):
                        h = re.match(r"\s*(?:Local |Global )?(?:Theorem|Lemma|Example|Fact|Corollary|Instance|Definition|Fixpoint)\s+([\w']+)", src[j])
                        if h: where = x[-1][0] + ":" + h[1]; break
                res = {"result": "killed", "by": where or r.stderr[-300:]}
        with open(out, "a") as f: f.write(json.dumps({**m, **res, "t": round(time.time() - t0)}) + "\n")
if __name__ == "__main__":
    if sys.argv[1] == "gen": gen(sys.argv[2])
    else: run(json.load(open(sys.argv[2])), sys.argv[3], *(int(x) for x in (sys.argv[4:6] or ["0", "1"])))
