#!/usr/bin/env python3
"""Counterexamples of the seeded bugs.  usage: cex.py LIST.py [name ...]

Each entry's goal has to be provable by computation in the edited model and not
in the model itself.  Only the model files are rebuilt."""
import os, subprocess, sys, json, shutil
ROOT = "/verif/rocq"; W = os.environ.get("CEX", "/tmp/cex")
MODEL = "Base Buf Crc16 Number OctetString Boolean Value Time SList Tree Bodies Message File Transport Server".split()
TAC = """Ltac go := first [ solve [vm_compute; reflexivity] | solve [vm_compute; discriminate] | solve [left; go] | solve [right; go] | solve [split; go] | solve [red; intro; vm_compute in *; discriminate] ].
Goal %s.
Proof. intros; go. Qed.
"""
def sh(dir, f): return subprocess.run(["bash", "-c", f"ulimit -v 7000000; cd {dir} && timeout 300 coqc -q -Q . Verif {f}.v"], capture_output=True, text=True)
def goal(dir, g):
    open(dir + "/cex.v", "w").write(open("/verif/seeded/preamble.txt").read() + TAC % g); return sh(dir, "cex")
def main():
    ns = {}; exec(open(sys.argv[1]).read(), ns)
    os.makedirs(W, exist_ok=True); out = {}
    p = W + "/cex.json"
    if os.path.exists(p): out = json.load(open(p))
    orig = W + "/orig"; shutil.rmtree(orig, ignore_errors=True); os.makedirs(orig)
    for f in MODEL:
        for x in (".v", ".vo"): shutil.copy(f"{ROOT}/theories/{f}{x}", orig)
    for e in ns["M"]:
        n = e["name"]
        if len(sys.argv) > 2 and n not in sys.argv[2:]: continue
        if len(sys.argv) == 2 and n in out: continue
        if not e.get("cex"): out[n] = None; continue
        d = f"{W}/{n}"; shutil.rmtree(d, ignore_errors=True); shutil.copytree(orig, d)
        path = f"{d}/{e['file']}.v"; t = open(path).read(); assert t.count(e["old"]) == 1, n
        open(path, "w").write(t.replace(e["old"], e["new"])); bad = None
        for f in MODEL[MODEL.index(e["file"]):]:
            r = sh(d, f)
            if r.returncode: bad = f + ": " + r.stderr[-400:]; break
        if bad is None:
            r = goal(d, e["cex"])
            if r.returncode: bad = "not provable in the edited model: " + r.stderr[-400:]
            elif goal(orig, e["cex"]).returncode == 0: bad = "provable in the model itself"
        out[n] = bad or "ok"; print(n, out[n], flush=True)
        shutil.rmtree(d); json.dump(out, open(p, "w"))
main()
