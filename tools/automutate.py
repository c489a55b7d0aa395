#!/usr/bin/env python3
"""Generated seeded bugs.  usage: automutate.py [File ...]

Takes every definition of the model apart, applies small edits (a constant, a
comparison, a dropped step, a swapped connective) and rebuilds what depends on
it up to the first proof that fails.  Examples do not count, nor does Tests.v,
nor, for edits outside the heap models, the comparison with the heap models.
What survives is to be looked at: either the edit changes nothing, or a theorem
is too weak.  Environment: ROOT, MUT, JOBS, K (edits per definition), SEED."""
import os, re, random, sys, json, shutil, threading
sys.path.insert(0, os.path.dirname(os.path.abspath(__file__)))
import mutate
from mutate import ROOT, W, HEAD, files, deps, closure, coqc
MODEL = "Buf Crc16 Number OctetString Boolean Value Time SList Tree Bodies Message File Transport Server ServerMain HeapBase HeapModel HeapWriteModel HeapBuildModel HexDump Args Printf".split()
K = int(os.environ.get("K", "2")); JOBS = int(os.environ.get("JOBS", "2"))

def blank(t):
    out = list(t); depth = 0; i = 0
    while i < len(t):
        if t.startswith("(*", i): depth += 1; out[i] = out[i+1] = " "; i += 2; continue
        if t.startswith("*)", i) and depth: depth -= 1; out[i] = out[i+1] = " "; i += 2; continue
        if depth and t[i] != "\n": out[i] = " "
        i += 1
    return "".join(out)
def defs(f):
    t = open(f"{ROOT}/theories/{f}.v").read(); b = blank(t)
    for m in re.finditer(r"^[ ]*(Definition|Fixpoint)\s+([A-Za-z0-9_']+)", b, re.M):
        e = re.compile(r"\.(?=\s)").search(b, m.end())
        a = b.find(":=", m.end(), e.end())
        if a > 0: yield t, b, m.group(2), a + 2, e.start()
OPS = [(r"(?<![\w.])(\d+)(?![\w.])", lambda m: str(int(m.group(1)) + 1), "constant"),
       (r"<\?", lambda m: "<=?", "comparison"), (r"<=\?", lambda m: "<?", "comparison"),
       (r">\?", lambda m: ">=?", "comparison"), (r">=\?", lambda m: ">?", "comparison"),
       (r"(?<![<>])=\?", lambda m: "<=?", "comparison"),
       (r"&&", lambda m: "||", "connective"), (r"\|\|", lambda m: "&&", "connective"),
       (r"\btrue\b", lambda m: "false", "boolean"), (r"\bfalse\b", lambda m: "true", "boolean"),
       (r"(?<=\s)\+(?=\s)", lambda m: "-", "arithmetic"), (r"(?<=\s)-(?=\s)", lambda m: "+", "arithmetic"),
       (r"(?<=[\s(])[^\s;][^;\n]*;;;\s*", lambda m: "", "dropped step"),
       (r"\bSome ([a-z]\w*)\b(?! *=>)", lambda m: "None", "lost value"),
       (r"\bif ((?:(?!\bif\b|\bthen\b)[^\n])*?)(?= then\b)", lambda m: "if negb (%s)" % m.group(1), "negated test"),
       (r"_u(8|16|32)_", lambda m: "_u%d_" % {8: 16, 16: 32, 32: 64}[int(m.group(1))], "width"),
       (r"\bSML_TYPE_(LIST|UNSIGNED|INTEGER|OCTET_STRING)\b", lambda m: "SML_TYPE_" + {"LIST": "UNSIGNED", "UNSIGNED": "INTEGER", "INTEGER": "UNSIGNED", "OCTET_STRING": "LIST"}[m.group(1)], "type")]
def candidates(f):
    for t, b, name, s, e in defs(f):
        c = []
        for pat, rep, op in OPS:
            for m in re.finditer(pat, b[s:e]):
                p, q = s + m.start(), s + m.end(); new = rep(m)
                if new != t[p:q]: c.append((op, p, q, new))
        yield t, name, c
def choose(fs):
    rng = random.Random(int(os.environ.get("SEED", "1"))); out = []
    for f in fs:
        for t, name, c in candidates(f):
            rng.shuffle(c); seen = set(); k = 0
            for op, p, q, new in c:
                if k >= K: break
                if op in seen and len({x[0] for x in c}) > len(seen): continue
                seen.add(op); k += 1
                ls = t.rfind("\n", 0, p) + 1; le = t.find("\n", q)
                out.append(dict(name=f"{f}.{name}.{op.replace(' ', '_')}.{p}", file=f, definition=name, op=op, pos=[p, q], new=new,
                                before=t[ls:le].strip(), after=(t[ls:p] + new + t[q:le]).strip()))
    return out
def attempt(e, fs, d, wd):
    shutil.rmtree(wd, ignore_errors=True)
    os.makedirs(wd); os.mkdir(wd + "/theories")
    f0 = e["file"]; cl = closure(d, f0); heap = f0.startswith("Heap")
    skip = {"Tests"} if heap else {x for x in fs if x.startswith("Heap") or x.startswith("PropsHeap") or x in ("Tests", "PropsMemory")}
    todo = [f for f in fs if (f == f0 or f in cl) and f not in skip]
    for f in fs:
        if f in skip and (f in cl): continue
        shutil.copy(f"{ROOT}/theories/{f}.v", f"{wd}/theories/")
        if f not in todo: os.symlink(f"{ROOT}/theories/{f}.vo", f"{wd}/theories/{f}.vo")
    p, q = e["pos"]; path = f"{wd}/theories/{f0}.v"; t = open(path).read(); open(path, "w").write(t[:p] + e["new"] + t[q:])
    examples = []
    for f in todo:
        path = f"{wd}/theories/{f}.v"
        for _ in range(40):
            r = coqc(wd, f)
            if r.returncode == 0: break
            m = re.search(r'File "[^"]*%s\.v", line (\d+), characters (\d+)' % f, r.stderr)
            if not m: return dict(result="killed", by=f"{f} (timeout or memory)", examples=examples)
            t = open(path).read(); pos = sum(len(l) + 1 for l in t.split("\n")[:int(m.group(1)) - 1]) + int(m.group(2))
            hs = [h for h in HEAD.finditer(t) if h.start() <= pos]; h = hs[-1] if hs else None
            pr = t.find("Proof.", h.start()) if h else -1
            if not h or pr < 0 or pos < pr or f in MODEL and "Example" not in h.group(0): 
                return dict(result="invalid" if f in MODEL else "killed", by=f"{f}.{h.group(1) if h else '?'}", error=r.stderr[-200:], examples=examples)
            if "Example" not in h.group(0): return dict(result="killed", by=f"{f}.{h.group(1)}", error=r.stderr.strip()[-200:], examples=examples)
            examples.append(h.group(1)); qe = re.compile(r"\b(Qed|Defined)\.").search(t, pr)
            open(path, "w").write(t[:pr] + "Proof. Admitted." + "\n" * t[pr:qe.end()].count("\n") + t[qe.end():])
    return dict(result="SURVIVED", by="", examples=examples)
def main():
    fs = files(); d = deps(fs); os.makedirs(W, exist_ok=True); outp = W + "/results.jsonl"
    done = {json.loads(l)["name"] for l in open(outp)} if os.path.exists(outp) else set()
    M = [m for m in choose(sys.argv[1:] or MODEL) if m["name"] not in done]
    random.Random(7).shuffle(M); print(len(M), "edits", flush=True)
    if os.environ.get("LIST"):
        for m in M: print(m["name"], "|", m["before"], "|", m["after"])
        return
    lock = threading.Lock(); it = iter(M)
    def work(i):
        while True:
            with lock: e = next(it, None)
            if e is None: return
            r = attempt(e, fs, d, f"{W}/w{i}"); r.update(e)
            with lock:
                with open(outp, "a") as f: f.write(json.dumps(r) + "\n")
                print(r["result"], e["name"], r["by"], flush=True)
    ts = [threading.Thread(target=work, args=(i,)) for i in range(JOBS)]
    [x.start() for x in ts]; [x.join() for x in ts]
if __name__ == "__main__": main()
