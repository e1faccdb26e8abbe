#!/usr/bin/env python3
"""Mutation tests of the theorems.

usage: mutate.py FILE...   (each FILE defines a list MUTANTS of dicts with keys
  file, definition, old, new, edit, claim)
For each mutant: copy rocq/ to a scratch directory, apply the edit to the model,
rebuild.  A lemma whose proof no longer runs is replaced (in the scratch copy
only) by an axiom of the same statement, and the build goes on; the theorems
that then rest on such an axiom are those that failed.  One line per mutant is
appended to seeded/LOG.jsonl."""
import json, os, re, subprocess, sys, shutil, runpy, time
ROOT = os.path.dirname(os.path.dirname(os.path.abspath(__file__)))
CUT = "Admi" + "tted."

def sh(cmd, cwd, timeout=3000):
    p = subprocess.run(cmd, cwd=cwd, shell=True, stdout=subprocess.PIPE, stderr=subprocess.STDOUT, text=True, timeout=timeout)
    return p.returncode, p.stdout

def files():
    return [l.strip() for l in open(ROOT + "/rocq/_CoqProject") if l.strip().endswith(".v")]

def deps(d):
    rc, out = sh("coqdep -Q theories Verif " + " ".join(files()), d)
    g = {}
    for l in out.splitlines():
        m = re.match(r"(theories/\w+)\.vo.*?:(.*)", l)
        if m:
            g[m.group(1) + ".v"] = [x[:-3] + ".v" for x in m.group(2).split() if x.startswith("theories/") and x.endswith(".vo")]
    return g

def sort(fs, g):
    """The files, each after those it depends on."""
    out = []
    def visit(f):
        if f in out: return
        for x in g.get(f, []): visit(x)
        out.append(f)
    for f in fs: visit(f)
    return out

HEAD = re.compile(r"^\s*(?:#\[.*\]\s*)?(Lemma|Theorem|Corollary|Example|Fact|Remark|Definition|Fixpoint|Instance)\s+(\w+)")
def cut(path, line):
    """Replace the proof containing [line] by an axiom."""
    L = open(path).read().split("\n")
    i = line - 1
    while i >= 0 and not HEAD.match(L[i]): i -= 1
    if i < 0: return None
    name = HEAD.match(L[i]).group(2); kind = HEAD.match(L[i]).group(1)
    j = i
    while j < len(L) and "Proof." not in L[j]:
        if j > i and HEAD.match(L[j]): return None
        j += 1
    if j == len(L): return None
    k = j
    while k < len(L) and not re.search(r"\b(Qed|Defined)\.", L[k]): k += 1
    if k == len(L): return None
    pre = L[j][:L[j].index("Proof.")]
    L[j:k+1] = [pre + "Proof. " + CUT]
    open(path, "w").write("\n".join(L))
    return name

def run(m, d):
    shutil.rmtree(d, ignore_errors=True)
    shutil.copytree(ROOT + "/rocq", d, ignore=shutil.ignore_patterns("*.v.d", ".lia.cache", ".nia.cache"))
    p = d + "/theories/" + m["file"]
    s = open(p).read()
    n = s.count(m["old"])
    if n != 1: return None, "old text occurs %d times" % n
    open(p, "w").write(s.replace(m["old"], m["new"]))
    g = deps(d); fs = sort(files(), g); dirty = {"theories/" + m["file"]}
    ch = True
    while ch:
        ch = False
        for f in fs:
            if f not in dirty and any(x in dirty for x in g.get(f, [])): dirty.add(f); ch = True
    # only the files the theorems of the claim rest on
    need = {f for f in fs if os.path.basename(f).startswith("Prop") and re.search(r"Theorem %s_" % m["claim"], open(ROOT + "/rocq/" + f).read())}
    todo = list(need)
    while todo:
        for x in g.get(todo.pop(), []):
            if x not in need: need.add(x); todo.append(x)
    dirty &= need
    broken = []; outs = {}
    for f in fs:
        if f not in dirty: continue
        while True:
            rc, out = sh("timeout %d coqc -Q theories Verif %s" % (m.get("timeout", 600), f), d)
            if rc == 0: outs[f] = out; break
            mm = re.search(r"line (\d+), characters", out)
            if not mm:
                # time out: find the sentence
                rc2, out2 = sh("timeout %d coqc -Q theories Verif -time %s | grep -v '^File' | tail -1" % (m.get("timeout", 600), f), d)
                mm2 = re.search(r"Chars (\d+) - (\d+)", out2)
                if not mm2: return None, "cannot locate: " + out[-300:]
                pos = int(mm2.group(2)); line = open(d + "/" + f).read().encode()[:pos].decode(errors="ignore").count("\n") + 2
            else: line = int(mm.group(1))
            if f == "theories/" + m["file"]: return None, "the edit does not compile: " + out[-300:]
            name = cut(d + "/" + f, line)
            if name is None: return None, "cannot cut at %s:%d: %s" % (f, line, out[-300:])
            broken.append(name)
    failed = []
    for f in fs:
        if not os.path.basename(f).startswith("Prop") or f not in outs: continue
        s = open(d + "/" + f).read()
        names = re.findall(r"Print Assumptions (\w+)\.", s)
        blocks = re.split(r"(?=^Closed under the global context|^Axioms:)", outs[f], flags=re.M)
        blocks = [b for b in blocks if b.startswith("Closed") or b.startswith("Axioms:")]
        for nme, b in zip(names, blocks):
            if any(re.search(r"\b%s\b" % x, b) for x in broken): failed.append(nme)
    return (broken, failed), None

def main():
    # scratch directory per process
    d = "/tmp/mut_%d" % os.getpid()
    for f in sys.argv[1:]:
        for m in runpy.run_path(f)["MUTANTS"]:
            t = time.time()
            r, err = run(m, d)
            if err: print("SKIP", m["definition"], m["edit"], err, flush=True); continue
            broken, failed = r
            hit = [x for x in failed if x.startswith(m["claim"])]
            print("%-9s %s %s: %s (%ds)" % ("caught" if hit else "SURVIVED", m["claim"], m["definition"], m["edit"], time.time() - t), failed, broken, flush=True)
            rec = {"definition": m["definition"] + " (rocq/theories/" + m["file"] + ")", "edit": m["edit"], "claim": m["claim"],
                   "failed": failed, "first_broken_lemmas": broken[:4], "caught": bool(hit), "tightened": m.get("tightened", [])}
            with open(ROOT + "/seeded/LOG.jsonl", "a") as o: o.write(json.dumps(rec) + "\n")
    shutil.rmtree(d, ignore_errors=True)
main()
