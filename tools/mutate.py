#!/usr/bin/env python3
"""Mutation test of the theorems.

usage: mutate.py mutants.json [first [last]]

Each mutant is {"file", "definition", "old", "new", "edit", "claim"}: `old` is replaced by `new`
(it must occur exactly once) in a scratch copy of /verif/rocq, which is then rebuilt.  One line per
mutant goes to /verif/seeded/LOG.jsonl.  A theorem counts as failed when the rebuild fails in it or in
a lemma or example it (transitively) mentions."""
import json, re, shutil, subprocess, sys, os

SRC, DST = os.environ.get("MUT_SRC", "/verif/rocq"), "/tmp/mut/rocq"
ITEM = re.compile(r"^\s*(?:Local |Global |#\[[^]]*\]\s*)*(Theorem|Lemma|Corollary|Example|Definition|Fixpoint|Record|Inductive|Instance)\s+([A-Za-z_0-9']+)", re.M)

def items(path):
    s = open(path).read()
    ms = list(ITEM.finditer(s))
    out = []
    for i, m in enumerate(ms):
        end = ms[i + 1].start() if i + 1 < len(ms) else len(s)
        out.append((m.group(2), m.group(1), s.count("\n", 0, m.start(2)) + 1, s[m.start():end]))
    return out

def main():
    muts = json.load(open(sys.argv[1]))
    lo = int(sys.argv[2]) if len(sys.argv) > 2 else 0
    hi = int(sys.argv[3]) if len(sys.argv) > 3 else len(muts)
    for k in range(lo, min(hi, len(muts))):
        m = muts[k]
        shutil.rmtree("/tmp/mut", ignore_errors=True); os.makedirs("/tmp/mut"); subprocess.run(["cp", "-a", SRC, DST], check=True)
        f = f"{DST}/theories/{m['file']}"
        s = open(f).read()
        if s.count(m["old"]) != 1:
            print(k, "SKIP: occurrences", s.count(m["old"]), m["edit"], flush=True)
            continue
        open(f, "w").write(s.replace(m["old"], m["new"]))
        subprocess.run("coq_makefile -f _CoqProject -o Makefile", shell=True, cwd=DST, check=True, stdout=subprocess.DEVNULL)
        broken = []
        # A failing example is cut out and the build resumed: it says nothing about the theorems behind it.
        for attempt in range(4):
            q = subprocess.Popen("make -k -j3 COQC='timeout 240 coqc'", shell=True, cwd=DST, stdout=subprocess.PIPE, stderr=subprocess.STDOUT, text=True, start_new_session=True)
            try:
                log = q.communicate(timeout=1500)[0]
            except subprocess.TimeoutExpired:
                os.killpg(q.pid, 15)
                log = q.communicate()[0] + "\nTIMEOUT"
            allitems, where = {}, {}
            for g in os.listdir(f"{DST}/theories"):
                if g.endswith(".v"):
                    where[g] = items(f"{DST}/theories/{g}")
                    for n, kind, ln, txt in where[g]:
                        allitems.setdefault(n, []).append((g, kind, txt))
            again = False
            for g, ln in re.findall(r'File "\./theories/([^"]+)", line (\d+)[^\n]*\nError', log):
                name = None
                for n, kind, l, txt in where[g]:
                    if l <= int(ln): name, k0, t0 = n, kind, txt
                if (g, name) not in broken: broken.append((g, name))
                if name and k0 == "Example":
                    t1 = re.sub(r"Proof\b.*?(Qed|Defined)\.", "Proof. Abort.", t0, count=1, flags=re.S)
                    s1 = open(f"{DST}/theories/{g}").read()
                    if t1 != t0: open(f"{DST}/theories/{g}", "w").write(s1.replace(t0, t1)); again = True
            if not again: break
        slow = re.findall(r"theories/(\w+)\.vo\] Error 124", log)
        bad = {n for _, n in broken}
        users = {}
        for n, l in allitems.items():
            for g, kind, txt in l:
                for t in set(re.findall(r"[A-Za-z_][A-Za-z_0-9']*", txt)):
                    if t != n: users.setdefault(t, set()).add(n)
        seen, todo = set(bad), list(bad)
        while todo:
            for u in users.get(todo.pop(), ()):
                if u not in seen: seen.add(u); todo.append(u)
        thms = sorted(n for n in seen if re.match(r"C\d+_", n or "") and any(k2 in ("Theorem",) for _, k2, _ in allitems.get(n, [])))
        line = {"definition": f"{m['file']}:{m['definition']}", "edit": m["edit"], "claim": m["claim"],
                "first_errors": [f"{g}:{n}" for g, n in broken] + [f"{g}.v:timeout" for g in slow],
                "theorems_failed": thms, "theorems_tightened": m.get("tightened", [])}
        with open("/verif/seeded/LOG.jsonl", "a") as o: o.write(json.dumps(line) + "\n")
        want = set(re.findall(r"C\d+", m["claim"]))
        got = {t.split("_")[0] for t in thms}
        print(k, "KILLED" if want & got else ("other" if thms else "SURVIVED"), m["edit"], "->", [f"{g}:{n}" for g, n in broken], slow, flush=True)

main()
