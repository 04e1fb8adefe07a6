#!/usr/bin/env python3
"""Mutation testing of the theorems.

usage: mutate.py mutations.json [start]

/tmp/mut/pristine is a built copy of /verif/rocq with theories/MutHole.v added (mutate.py init).
For each mutation: copy it to /tmp/mut/work, apply the edit to the model, rebuild.  A proof that
no longer goes through is replaced by the axiom mut_hole and the build goes on; in the end the
theorems of MANIFEST.json that depend on mut_hole are the ones that failed.  One line per
mutation is printed as JSON and appended to /tmp/mut/out.jsonl."""
import json, os, re, subprocess, sys, time
MUT = os.environ.get("MUT", "/tmp/mut")
PRI, WORK = MUT + "/pristine", MUT + "/work"
V = "/verif"
START = re.compile(r"^\s*(?:Local |Global |#\[[^\]]*\] )?(?:Lemma|Theorem|Example|Corollary|Fact|Remark|Goal)\s+(\w+)", re.M)

def sh(cmd, **kw): return subprocess.run(cmd, shell=True, stdout=subprocess.PIPE, stderr=subprocess.STDOUT, text=True, **kw)

def init():
    sh(f"mkdir -p {MUT}; rm -rf {PRI}; cp -a {V}/rocq {PRI}")
    open(PRI + "/theories/MutHole.v", "w").write("Axiom mut_hole : forall P : Prop, P.\n")
    s = open(PRI + "/_CoqProject").read()
    if "MutHole" not in s: open(PRI + "/_CoqProject", "a").write("\ntheories/MutHole.v\n")
    r = sh(f"cd {PRI} && coq_makefile -f _CoqProject -o Makefile && make -j4")
    print(r.stdout[-500:])

def admit(path, line, failed):
    s = open(path).read()
    pos = sum(len(l) + 1 for l in s.split("\n")[:line - 1])
    end = pos + len(s.split("\n")[line - 1])
    last = None
    for m in START.finditer(s):
        if m.start() <= end: last = m
    if last is None: return False
    p = re.compile(r"\bProof\b[^.]*\.(?=\s)").search(s, last.start())
    if not p: return False
    q = re.compile(r"\b(Qed|Defined)\.").search(s, p.end())
    if not q or q.end() < pos: return False
    if "mut_hole" in s[p.start():q.end()]: return False
    name = last.group(1)
    s = s[:p.start()] + "Proof. exact (MutHole.mut_hole _). Qed." + "\n" * s[p.start():q.end()].count("\n") + s[q.end():]
    if "Verif Require MutHole" not in s: s = "From Verif Require MutHole. " + s
    open(path, "w").write(s)
    failed.append(os.path.basename(path)[:-2] + "." + name)
    return True

def theorems():
    m = json.load(open(V + "/MANIFEST.json"))
    names = []
    for c in m["claims"]:
        for t in c["theorems"]:
            if t not in names: names.append(t)
    return names

# the property files rebuilt after an edit of a model file (all of them with "full": true)
SCOPE = {"M_grate": "P_grate P_simple", "M_simple": "P_accept P_simple P_tsv P_numtext", "M_slicereader": "P_slicereader P_cfb",
         "M_sheet": "P_sheet P_display", "M_cell": "P_cell P_sheet", "M_value": "P_blanks P_cell P_formats P_sheet", "M_fmt": "P_money P_sciamount P_percent P_amount P_trip P_general P_formats P_display P_numbers P_custom",
         "M_formats": "P_formats P_display P_custom", "M_dates": "P_dates", "M_numbers": "P_numbers", "M_cfb": "P_cfb P_total P_hang P_cut P_cfbsays P_cfbopens P_cfbfile P_lost",
         "M_crypto": "P_crypto P_biff P_cipher P_loads", "M_biff": "P_biff P_pool P_frames P_saysfile P_cipher P_loads", "M_xlstr": "P_xlstr P_xls P_loads", "M_hlink": "P_hlink",
         "M_xls": "P_xls P_total P_robust P_says P_saysfile P_loads P_loadsfile", "M_xlsx": "P_xlsx P_xrobust P_xsays P_xsaysfile P_which P_whichfile", "M_pool": "P_pool", "M_tsv": "P_tsv P_again P_report",
 "M_outpool": "P_outpool", "M_report": "P_report", "M_cmd": "P_cmd P_names", "M_open": "P_open P_refuse P_total P_whichfile P_fault", "M_fault": "P_fault", "GoTime": "P_display P_dates P_custom", "GoFloat": "P_accept P_hex P_numtext P_general"}

def run(mu):
    t0 = time.time()
    sh(f"rm -rf {WORK}; cp -a {PRI} {WORK}")
    f = f"{WORK}/theories/{mu['file']}.v"
    s = open(f).read()
    n = s.count(mu["old"])
    if n == 0 or (n > 1 and not mu.get("all") and "nth" not in mu): return {"error": f"old text occurs {n} times", "mu": mu}
    if "nth" in mu:
        parts = s.split(mu["old"]); k = mu["nth"]
        s = mu["old"].join(parts[:k + 1]) + mu["new"] + mu["old"].join(parts[k + 1:])
    else: s = s.replace(mu["old"], mu["new"])
    open(f, "w").write(s)
    failed, stuck, tries = [], [], {}
    scope = [] if mu.get("full") else (mu.get("scope") or SCOPE.get(mu["file"], "")).split()
    goals = " ".join(f"theories/{p}.vo" for p in scope)
    while True:
        r = sh(f"cd {WORK} && make -k -j3 TIMER='timeout {mu.get('limit', 200)}' {goals}")
        errs = re.findall(r'File "\./theories/(\w+)\.v", line (\d+), characters [^\n]*\n(Error|Syntax)', r.stdout)
        errs2 = {}
        for (fn, ln, _) in errs: errs2.setdefault(fn, int(ln))
        if r.returncode == 0: break
        prog = False
        for fn, ln in errs2.items():
            if fn in stuck: continue
            tries[fn] = tries.get(fn, 0) + 1
            if tries[fn] <= 60 and admit(f"{WORK}/theories/{fn}.v", ln, failed): prog = True
            else:
                stuck.append(fn); print("STUCK", fn, ln, file=sys.stderr)
        if not prog:
            if not errs2: stuck.append(r.stdout[-300:])
            break
    # which theorems now rest on the hole
    mods = [os.path.basename(x)[:-2] for x in sorted(os.listdir(WORK + "/theories")) if re.match(r"P_\w+\.v$", os.path.basename(x))]
    if scope: mods = [m for m in mods if m in scope]
    have = [m for m in mods if os.path.exists(f"{WORK}/theories/{m}.vo") and m not in stuck]
    lost = [m for m in mods if m not in have]
    rebuilt = [m for m in have if os.path.getmtime(f"{WORK}/theories/{m}.vo") > os.path.getmtime(f"{PRI}/theories/{m}.vo") + 0.5]
    thms = []
    for m in mods:
        src = open(f"{PRI}/theories/{m}.v").read()
        thms += [(m, t) for t in re.findall(r"^\s*Theorem\s+(\w+)", src, re.M)]
    q = "".join(f"From Verif Require {m}.\n" for m in rebuilt)
    for m, t in thms:
        if m in rebuilt: q += f'Goal True. idtac "THM {t}". Abort.\nPrint Assumptions {m}.{t}.\n'
    open(MUT + "/q.v", "w").write(q)
    r = sh(f"cd {WORK} && timeout 1200 coqc -Q theories Verif {MUT}/q.v")
    cur, bad = None, []
    for l in r.stdout.split("\n"):
        if l.startswith("THM "): cur = l[4:].strip()
        elif "mut_hole" in l and cur not in bad: bad.append(cur)
    bad += [t for m, t in thms if m in lost]
    out = {"definition": mu["definition"] if "definition" in mu else mu["file"], "file": mu["file"] + ".v", "edit": mu["edit"], "claim": mu["claim"],
           "theorems_failed": bad, "proofs_failed": failed[:12], "checked": scope or ["all"], "stuck": stuck, "seconds": int(time.time() - t0)}
    return out

if __name__ == "__main__":
    if sys.argv[1] == "init": init(); sys.exit()
    ms = json.load(open(sys.argv[1]))
    for mu in ms[int(sys.argv[2]) if len(sys.argv) > 2 else 0:]:
        o = run(mu)
        with open(MUT + "/out.jsonl", "a") as g: g.write(json.dumps(o, ensure_ascii=False) + "\n")
        print(json.dumps(o, ensure_ascii=False), flush=True)
