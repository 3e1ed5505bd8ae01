#!/usr/bin/env python3
"""Mutation testing of the theorems.

  mutate.py using            record, for lemmas inside sections, the section variables their proofs use
  mutate.py run ID...        apply the mutants with these ids (seeded/mutants.json), rebuild, print one JSON line each
  mutate.py claims ID...     the same, but rebuild only what the properties the mutant should break rest on

Each mutant is an edit of the model (file, old text, new text).  The theories are copied to a scratch directory; files
are rebuilt in the order of _CoqProject; a proof that no longer goes through, or no longer ends, is replaced by Admitted and the
build goes on.  A theorem of a Prop_ file has failed when its own proof broke or its Print Assumptions lists an admitted lemma."""
import json, os, re, shutil, subprocess, sys
ROOT = os.path.join(os.path.dirname(os.path.abspath(__file__)), "..")
ROCQ = os.path.join(ROOT, "rocq")
SCR = os.environ.get("MUT_SCRATCH", "/tmp/mut")
USING = os.path.join(SCR, "using.json")
files = [l.split("/")[1][:-2] for l in open(os.path.join(ROCQ, "_CoqProject")).read().split("\n") if l.endswith(".v")]

def coqc(d, f, t=900):
    try:
        p = subprocess.run(["coqc", "-q", "-Q", d, "Verif", os.path.join(d, f + ".v")], capture_output=True, text=True, timeout=t)
        return p.returncode, p.stdout, p.stderr
    except subprocess.TimeoutExpired:
        return -9, "", "timeout"

def deps(d):
    r = {}
    for f in files:
        s = open(os.path.join(d, f + ".v")).read()
        m = " ".join(re.findall(r"From Verif Require (?:Import|Export)\s+([^.]*)\.", s))
        r[f] = set(m.split()) & set(files)
    return r

HEAD = re.compile(r"^\s*(?:Local |Global )?(Theorem|Lemma|Example|Corollary|Fact|Remark)\s+([\w']+)", re.M)
def lemma_at(src, pos):
    best = None
    for m in HEAD.finditer(src):
        if m.start() > pos: break
        best = m
    if not best: return None
    p = re.compile(r"\bProof\b[^.]*\.").search(src, best.end())
    if not p: return None
    q = re.compile(r"\b(Qed|Defined)\.").search(src, p.end())
    if not q: return None
    return best.group(2), p.start(), p.end(), q.end(), best.group(1)

def using():
    d = os.path.join(SCR, "using"); shutil.rmtree(d, ignore_errors=True); shutil.copytree(os.path.join(ROCQ, "theories"), d)
    out = {}
    for f in files:
        s = open(os.path.join(d, f + ".v")).read()
        if not re.search(r"^Section ", s, re.M): continue
        if f.startswith(("Data_", "Model_", "Spec_")): continue
        s = re.sub(r"^Section ", "Set Suggest Proof Using.\nSection ", s, count=1, flags=re.M)
        g = "Zz_" + f
        open(os.path.join(d, g + ".v"), "w").write(s)
        rc, o, e = coqc(d, g)
        if rc: print("problem", f, e[:300])
        t = o + e
        for m in re.finditer(r"The proof of\s+([\w']+)\s+should start with one of the following commands:\s+Proof( using[^.]*)?\.", t):
            out.setdefault(f, {})[m.group(1)] = (m.group(2) or "").strip()
        print(f, len(out.get(f, {})), flush=True)
    json.dump(out, open(USING, "w"), indent=1)

def below(d, claims):
    """The files that the Prop_ files of these properties need."""
    dep = deps(d); todo = []
    for f in files:
        if f.startswith("Prop_"):
            t = open(os.path.join(d, f + ".v")).read()
            if any(re.search(r"^Theorem %s_" % c, t, re.M) for c in claims): todo.append(f)
    res = set()
    while todo:
        f = todo.pop()
        if f not in res: res.add(f); todo += dep[f]
    return res

def run(mid, narrow=False):
    mutants = json.load(open(os.path.join(ROOT, "seeded", "mutants.json")))
    mu = [m for m in mutants if m["id"] == mid][0]
    use = json.load(open(USING))
    d = os.path.join(SCR, mid); shutil.rmtree(d, ignore_errors=True); shutil.copytree(os.path.join(ROCQ, "theories"), d)
    for ed in mu["edits"]:
        p = os.path.join(d, ed["file"]); s = open(p).read()
        assert s.count(ed["old"]) == 1, (mid, ed["old"], s.count(ed["old"]))
        open(p, "w").write(s.replace(ed["old"], ed["new"]))
    dep = deps(d); dirty = set(e["file"][:-2] for e in mu["edits"])
    failed, lemmas, dead = [], [], set()
    want = below(d, mu["expect"]) if narrow else set(files)
    for f in files:
        if f not in want: continue
        if f not in dirty and not (dep[f] & dirty): continue
        if dep[f] & dead:
            dead.add(f); continue
        dirty.add(f)
        p = os.path.join(d, f + ".v")
        for _ in range(60):
            rc, o, e = coqc(d, f)
            if rc == 0: break
            m = re.search(r'File "[^"]*", line (\d+), characters (\d+)-(\d+):\s+Error', e)
            src = open(p).read()
            if e == "timeout" and not src.startswith("Set Default Timeout"):
                open(p, "w").write("Set Default Timeout 100.\n" + src); continue
            if not m:
                lemmas.append(f + ": " + e[-120:].strip()); dead.add(f); break
            raw = src.encode(); lines = raw.split(b"\n"); pos = len(b"\n".join(lines[:int(m.group(1)) - 1]).decode()) + 1
            pos += len(lines[int(m.group(1)) - 1][:int(m.group(2))].decode(errors="ignore"))
            la = lemma_at(src, pos)
            if not la or not (la[1] <= pos <= la[3]):
                lemmas.append("%s: statement at line %s: %s" % (f, m.group(1), e.split("Error:")[1][:150].strip().replace("\n", " "))); dead.add(f); break
            name = la[0]
            if f.startswith("Prop_"): failed.append(name)
            else: lemmas.append(name)
            u = use.get(f, {}).get(name)
            new = "Proof%s. Admitted." % ((" " + u) if u else "")
            open(p, "w").write(src[:la[1]] + new + src[la[3]:])
        else: dead.add(f)
        if f.startswith("Prop_") and f not in dead:
            names = re.findall(r"^Print Assumptions ([\w']+)\.", open(p).read(), re.M)
            parts = re.split(r"(?m)^(?=Closed under the global context|Axioms:)", o)
            parts = [x for x in parts if x.startswith(("Closed", "Axioms"))]
            assert len(parts) == len(names), (f, len(parts), len(names))
            for n, x in zip(names, parts):
                if x.startswith("Axioms") and n not in failed: failed.append(n)
    shutil.rmtree(d, ignore_errors=True)
    deadp = sorted(x for x in dead if x.startswith("Prop_"))
    out = {"id": mid, "failed": failed, "lemmas": lemmas, "unbuilt": deadp}
    if narrow: out["rebuilt"] = sorted(f for f in want if f.startswith("Prop_"))
    print(json.dumps(out), flush=True)

os.makedirs(SCR, exist_ok=True)
if sys.argv[1] == "using": using()
else:
    for i in sys.argv[2:]: run(i, sys.argv[1] == "claims")
