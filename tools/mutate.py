#!/usr/bin/env python3
"""Seeded-bug runs.  usage: mutate.py LIST.py [name ...]

Each entry of LIST edits one definition of the model in a scratch copy.  Every
file that depends on it is rebuilt; a proof that fails is replaced by Admitted
in the scratch copy, so that the rest can still be checked.  A property theorem
has failed if its own proof fails or its Print Assumptions shows such a lemma.
With ONLY="File ..." in the environment only these files and what they need are rebuilt."""
import os, re, subprocess, sys, json, shutil, threading
ROOT = os.environ.get("ROOT", "/verif/rocq"); W = os.environ.get("MUT", "/tmp/mut"); JOBS = int(os.environ.get("JOBS", "3"))
HEAD = re.compile(r"^[ ]*(?:#\[[^\]]*\]\s*)?(?:Lemma|Theorem|Example|Corollary|Fact|Remark|Definition|Fixpoint|Instance)\s+([A-Za-z0-9_']+)", re.M)

def files():
    return [l.strip()[9:-2] for l in open(ROOT + "/_CoqProject") if l.strip().startswith("theories/")]
def deps(fs):
    d = {}
    for f in fs:
        t = open(f"{ROOT}/theories/{f}.v").read()
        d[f] = {w for m in re.finditer(r"From Verif Require (?:Import|Export)\s+([^.]*)\.", t) for w in m.group(1).split()}
    return d
def closure(d, f):
    out, todo = set(), [f]
    while todo:
        x = todo.pop()
        for g, s in d.items():
            if x in s and g not in out: out.add(g); todo.append(g)
    return out
def coqc(dir, f):
    cmd = f"ulimit -v 7000000; cd {dir}/theories && timeout 400 coqc -q -Q . Verif {f}.v"
    p = subprocess.run(["bash", "-c", cmd], capture_output=True, text=True)
    return p
def build(dir, f, log):
    path = f"{dir}/theories/{f}.v"; admitted = []
    for _ in range(150):
        p = coqc(dir, f)
        if p.returncode == 0: return admitted, p.stdout
        m = re.search(r'File "\./?%s\.v", line (\d+)' % f, p.stderr) or re.search(r'File "[^"]*%s\.v", line (\d+)' % f, p.stderr)
        text = open(path).read()
        if not m:
            q = subprocess.run(["bash", "-c", f"ulimit -v 7000000; cd {dir}/theories && timeout 400 coqc -q -time -Q . Verif {f}.v"], capture_output=True, text=True)
            ch = [int(x) for x in re.findall(r"^Chars (\d+) - ", q.stdout, re.M)]
            if not ch: return None, p.stderr
            pos = len(text.encode()[:ch[-1] + 1].decode(errors="ignore")) + 2
        else:
            pos = sum(len(l) + 1 for l in text.split("\n")[:int(m.group(1)) - 1])
            c = re.search(r"characters (\d+)-", p.stderr[m.start():]); pos += int(c.group(1)) if c else 0
        hs = [h for h in HEAD.finditer(text) if h.start() <= pos]
        if not hs: return None, p.stderr
        h = hs[-1]; pr = text.find("Proof.", h.start()); qe = re.compile(r"\b(Qed|Defined)\.").search(text, pr)
        nxt = HEAD.search(text, h.end())
        if pr < 0 or not qe or (nxt and nxt.start() < pr) or pos < pr:
            log.append(f"{f}: {h.group(1)}: statement or definition: {p.stderr[-300:]}"); return None, p.stderr
        name = h.group(1)
        if name in admitted: return None, p.stderr
        admitted.append(name); log.append(f"{f}.{name}: {p.stderr.strip()[-220:]!r}")
        old = text[pr:qe.end()]
        open(path, "w").write(text[:pr] + "Proof. Admitted." + "\n" * old.count("\n") + text[qe.end():])
    return None, "too many"
def run(entry, fs, d):
    dir = f"{W}/w_{entry['name']}"
    shutil.rmtree(dir, ignore_errors=True); shutil.copytree(ROOT, dir)
    f0 = entry["file"]; path = f"{dir}/theories/{f0}.v"; t = open(path).read()
    if t.count(entry["old"]) != 1: raise SystemExit(f"{entry['name']}: {t.count(entry['old'])} matches")
    open(path, "w").write(t.replace(entry["old"], entry["new"]))
    touched = {f0}
    for f1, old, new in entry.get("also", []):
        path = f"{dir}/theories/{f1}.v"; t = open(path).read(); touched.add(f1)
        if t.count(old) != 1: raise SystemExit(f"{entry['name']}: {t.count(old)} matches")
        open(path, "w").write(t.replace(old, new))
    todo = [f for f in fs if any(f == g or f in closure(d, g) for g in touched)]
    if os.environ.get("ONLY"):
        need = set(os.environ["ONLY"].split()); new = need
        while new: new = {g for f in new for g in d[f]} - need; need |= new
        for f in set(todo) - need:
            for x in ("v", "vo"):
                try: os.remove(f"{dir}/theories/{f}.{x}")
                except FileNotFoundError: pass
        todo = [f for f in todo if f in need]
    for f in todo:
        try: os.remove(f"{dir}/theories/{f}.vo")
        except FileNotFoundError: pass
    res, log, lock, cond = {}, [], threading.Lock(), threading.Condition()
    running = set()
    def worker():
        while True:
            with cond:
                while True:
                    left = [f for f in todo if f not in res and f not in running]
                    if not left: return
                    ready = [f for f in left if not any((g in todo and g not in res) for g in d[f])]
                    if ready: f = ready[0]; running.add(f); break
                    cond.wait()
            if any(res.get(g, (1,))[0] is None for g in d[f] if g in res): r = (None, "dependency")
            else: r = build(dir, f, log)
            with cond: running.discard(f); res[f] = r; cond.notify_all()
    ts = [threading.Thread(target=worker) for _ in range(JOBS)]
    [x.start() for x in ts]; [x.join() for x in ts]
    direct, failed, broken = [], [], []
    for f in todo:
        adm, out = res[f]; src = open(f"{ROOT}/theories/{f}.v").read()
        names = re.findall(r"^Print Assumptions ([A-Za-z0-9_']+)\.", src, re.M)
        if adm is None: broken.append(f); failed += names; continue
        direct += [f"{f}.{a}" for a in adm]
        parts = re.split(r"(?=^Closed under the global context|^Axioms:)", out, flags=re.M)
        parts = [x for x in parts if x.startswith("Closed") or x.startswith("Axioms:")]
        if len(parts) != len(names): log.append(f"{f}: {len(parts)} vs {len(names)} assumptions")
        for n, x in zip(names, parts):
            if x.startswith("Axioms:"): failed.append(n)
        failed += [a for a in adm if a in names and a not in failed]
    shutil.rmtree(dir, ignore_errors=True)
    return dict(direct=direct, failed=sorted(set(failed)), unbuildable=broken, log=log)
def main():
    ns = {}; exec(open(sys.argv[1]).read(), ns); fs = files(); d = deps(fs)
    man = {c["property"]: c["theorems"] for c in json.load(open("/verif/MANIFEST.json"))["claims"]}
    os.makedirs(W, exist_ok=True)
    outp = W + "/results.jsonl"
    done = {json.loads(l)["name"] for l in open(outp)} if os.path.exists(outp) else set()
    for e in ns["M"]:
        if len(sys.argv) > 2 and e["name"] not in sys.argv[2:]: continue
        if len(sys.argv) == 2 and e["name"] in done: continue
        r = run(e, fs, d)
        per = {c: [t for t in man.get(c, []) if t in r["failed"]] for c in e["breaks"]}
        r.update(name=e["name"], missed=[c for c in e["breaks"] if not per[c]], per=per, entry=e)
        with open(outp, "a") as f: f.write(json.dumps(r) + "\n")
        print(e["name"], "missed:", r["missed"], "failed:", len(r["failed"]), "direct:", len(r["direct"]), "unbuildable:", r["unbuildable"], flush=True)
if __name__ == "__main__": main()
