#!/usr/bin/env python3
"""Mutation runs.  usage: mutate.py MUTANTS.json RESULTS.jsonl [name...]

Each mutant is {"name", "file", "old", "new", "what", "claim"}; [old] must occur exactly once
in rocq/theories/[file] (or give "edits": [[file, old, new], ...]).  The edit is made in a
scratch copy outside the repository.  Statements are checked first (coqc -vos), then the
proofs of every file (coqc -vok); a lemma whose proof breaks is admitted and the file checked
again, until all pass.  A theorem counts as failed if it depends on a lemma that broke
(Print Opaque Dependencies on the unmutated development).  With FIRST=regex, or a regex
under "first" in the mutant, the files that match are checked first, and the others only if nothing failed there (the list of failed
theorems is then not complete, and the result is marked "first").  With FAST=1 the files are
checked one at a time, until a theorem fails (marked "first" as well)."""
import json, os, re, subprocess, sys, time
from concurrent.futures import ThreadPoolExecutor
root = os.path.dirname(os.path.dirname(os.path.abspath(__file__)))
scratch = os.environ.get("SCRATCH", "/tmp/mutation")
FIRST = os.environ.get("FIRST")
JOBS = int(os.environ.get("JOBS", "4"))
LIMIT = os.environ.get("LIMIT", "600")
START = re.compile(r"^\s*(?:#\[\w+\]\s*)?(Lemma|Theorem|Example|Corollary|Fact|Remark|Instance|Goal)\s+([\w']+)?", re.M)

def sh(cmd, cwd, timeout=3600):
    try:
        p = subprocess.run(cmd, cwd=cwd, shell=True, capture_output=True, text=True, timeout=timeout)
        return p.returncode, p.stdout, p.stderr
    except subprocess.TimeoutExpired:
        return 124, "", "timeout"

def admit(path, off, msg=""):
    """Replace the proof around offset [off] by Admitted; returns the lemma's name."""
    s = open(path).read()
    m = re.search(r"\(in proof\s+([\w']+)\)", msg)
    if m:
        q = re.search(r"^\s*(?:Lemma|Theorem|Example)\s+" + re.escape(m[1]) + r"\b(?:.|\n)*?\bProof\b[^.]*\.", s, re.M)
        if q:
            off = q.end()
    starts = [m for m in START.finditer(s) if m.start() <= off]
    if not starts:
        return None
    m = starts[-1]
    q = re.search(r"\bProof\b[^.]*\.", s[m.start():])
    if not q:
        return None
    ps = m.start() + q.start()
    e = re.search(r"\b(Qed|Defined)\.", s[ps:])
    if not e:
        return None
    pe = ps + e.end()
    if off > pe or off < ps:
        return None
    # keep the line structure, so that positions stay meaningful
    s = s[:ps] + "Proof. Admitted." + "\n" * s.count("\n", ps, pe) + s[pe:]
    open(path, "w").write(s)
    return m.group(2)

def offset(path, line, col):
    L = open(path, "rb").read().split(b"\n")
    b = sum(len(x) + 1 for x in L[:line - 1]) + col
    return len(open(path, "rb").read()[:b].decode(errors="ignore"))

def files():
    return [l.strip() for l in open(f"{root}/rocq/_CoqProject") if l.strip().endswith(".v")]

def theorems():
    out = []
    for f in files():
        b = os.path.basename(f)
        if b.startswith("Prop") and b != "Props.v":
            for m in re.finditer(r"^(?:Theorem|Example) (C\d\d_\w+)", open(f"{root}/rocq/{f}").read(), re.M):
                out.append((b[:-2], m.group(1)))
    return out

def dependencies():
    """For each claim theorem the opaque constants it rests on, on the built original."""
    head = sh("git rev-parse HEAD:rocq", root)[1].strip()
    cache = f"{scratch}/deps-{head}.json"
    if os.path.exists(cache):
        return json.load(open(cache))
    ts = theorems()
    src = "".join(f"From Verif Require {m}.\n" for m in sorted({m for m, _ in ts}))
    src += "".join(f'Goal True. idtac "@@{m}.{t}". Abort.\nPrint Opaque Dependencies {m}.{t}.\n' for m, t in ts)
    open(f"{scratch}/Deps.v", "w").write(src)
    rc, o, e = sh(f"coqc -Q {root}/rocq/theories Verif Deps.v", scratch, 7200)
    assert rc == 0, e[-2000:]
    deps = {}
    for part in o.split("@@")[1:]:
        name, rest = part.split("\n", 1)
        mod, name = name.strip().split(".")
        deps[name] = sorted(set(re.findall(r"^([\w'.]+)(?: |$)", rest, re.M)) | {f"{mod}.{name}"})
    json.dump(deps, open(cache, "w"))
    return deps

def dependents(edited):
    """The edited files and all that depend on them, in build order."""
    o = sh("coqdep -Q theories Verif theories/*.v", f"{root}/rocq")[1]
    need = {}
    for l in o.splitlines():
        m = re.match(r"theories/(\w+)\.vo\b[^:]*:(.*)", l)
        if m:
            need[m[1]] = set(re.findall(r"theories/(\w+)\.vo\b", m[2]))
    hit = {f[:-2] for f in edited}
    while True:
        more = {f for f, d in need.items() if d & hit} - hit
        if not more:
            return [f for f in files() if os.path.basename(f)[:-2] in hit]
        hit |= more

def sentence_after(f, mode):
    """Offset of the sentence that ran out of time."""
    rc, o, e = sh(f"timeout {LIMIT} coqc {mode} -time -Q theories Verif {f}", f"{scratch}/rocq")
    ch = re.findall(r"^Chars (\d+) - (\d+)", o, re.M)
    b = int(ch[-1][1]) + 2 if ch else 0
    return len(open(f"{scratch}/rocq/{f}", "rb").read()[:b].decode(errors="ignore"))

ERR = re.compile(r'File "\./?(theories/\w+\.v)", line (\d+), characters (\d+)-(\d+):\n(Error[^\n]*(?:\n[^\n]+)*)')

def vok(f, broken):
    """Check the proofs of one file, admitting those that break; None or an error text."""
    while True:
        rc, o, e = sh(f"timeout {LIMIT} coqc -vok -Q theories Verif {f}", f"{scratch}/rocq")
        if rc == 0:
            return None
        m = ERR.search(e.replace(f'File "{scratch}/rocq/', 'File "./'))
        if not m:
            m = re.search(r'File "\./?(theories/\w+\.v)", line (\d+), characters (\d+)-(\d+):\n(Error(?:.|\n)*)', e)
        if m:
            off = offset(f"{scratch}/rocq/{f}", int(m[2]), int(m[3]))
            why = m[5]
        elif rc == 124:
            off, why = sentence_after(f, "-vok"), "timeout"
        else:
            return f"{f}: {e[-300:]}"
        name = admit(f"{scratch}/rocq/{f}", off, why)
        if name is None:
            return f"{f}: not inside a proof: {why[:300]}"
        broken.append(f"{os.path.basename(f)[:-2]}.{name}")

def run(mut, deps):
    os.makedirs(scratch, exist_ok=True)
    R = f"{scratch}/rocq"
    sh(f"rm -rf {R} && mkdir {R} {R}/theories && cp {root}/rocq/_CoqProject {R}/ && cp -p {root}/rocq/theories/*.v {R}/theories/", "/")
    # compiled files of what the edit cannot reach
    sh(f"cp -p {root}/rocq/theories/*.vo* {root}/rocq/theories/*.glob {R}/theories/", "/")
    edits = mut.get("edits") or [[mut["file"], mut["old"], mut["new"]]]
    for f, old, new in edits:
        p = f"{R}/theories/{f}"
        s = open(p).read()
        if s.count(old) != 1:
            return {"error": f"old text occurs {s.count(old)} times"}
        open(p, "w").write(s.replace(old, new))
    todo = dependents({f for f, _, _ in edits})
    for f in todo:
        sh(f"rm -f {f[:-2]}.vo {f[:-2]}.vos {f[:-2]}.vok {f[:-2]}.glob", R)
    sh("coq_makefile -f _CoqProject -o Makefile", R)
    broken, t0 = [], time.time()
    parts = [todo]
    first = mut.get("first", FIRST)
    if first:
        hit = [f for f in todo if re.fullmatch(first, os.path.basename(f)[:-2])]
        parts = [hit, [f for f in todo if f not in hit]]
    if os.environ.get("FAST"):
        parts = [[f] for p in parts for f in p]
    for part in parts:
        if not part:
            continue
        vos = " ".join(f + "os" for f in part)
        for rnd in range(40):
            rc, o, e = sh(f"make -k -j{JOBS} {vos} COQC='timeout {LIMIT} coqc'", R, 7200)
            if rc == 0:
                break
            locs = re.findall(r'File "\./?(theories/\w+\.v)", line (\d+), characters (\d+)-(\d+):\n(Error[^\n]*(?:\n[^\n]+)*)', o + e)
            if not locs:
                return {"error": "vos failed: " + (o + e)[-500:], "broken": broken}
            for f, l, c, _, msg in locs:
                name = admit(f"{R}/{f}", offset(f"{R}/{f}", int(l), int(c)), msg)
                if name is None:
                    return {"error": f"{f}:{l} not inside a proof: {msg[:400]}", "broken": broken}
                broken.append(f"{os.path.basename(f)[:-2]}.{name}")
        else:
            return {"error": "too many rounds", "broken": broken}
        with ThreadPoolExecutor(JOBS) as ex:
            errs = [x for x in ex.map(lambda f: vok(f, broken), part) if x]
        if errs:
            return {"error": "; ".join(errs)[:800], "broken": broken}
        bad = set(broken)
        failed = [t for t, d in deps.items() if any(".".join(x.split(".")[-2:]) in bad for x in d)]
        if any(not re.search("_(applies|concrete)$", t) for t in failed):
            break
    r = {"broken": broken, "failed": failed, "secs": round(time.time() - t0)}
    if part is not parts[-1]:
        r["first"] = True
    return r

def main():
    os.makedirs(scratch, exist_ok=True)
    muts = json.load(open(sys.argv[1]))
    done = set()
    if os.path.exists(sys.argv[2]):
        done = {json.loads(l)["name"] for l in open(sys.argv[2]) if l.strip()}
    only = set(sys.argv[3:])
    deps = dependencies()
    for m in muts:
        if m["name"] in done or only and m["name"] not in only:
            continue
        r = run(m, deps)
        r["name"] = m["name"]
        with open(sys.argv[2], "a") as f:
            f.write(json.dumps(r) + "\n")
        print(m["name"], r.get("error") or (len(r["broken"]), r["failed"][:12], r["secs"]), flush=True)
if __name__ == "__main__":
    main()
