#!/usr/bin/env python3
"""Try the theorems against wrong programs.

usage: mutate.py edits.json [out.jsonl]

edits.json: list of {"file", "definition", "old", "new", "claim", "edit"}.
Each edit is applied to a scratch copy of rocq/ (never to the repository).
Files that depend on the edited one are recompiled; a statement whose proof no
longer goes through is noted and skipped, so that all broken theorems are
found in one pass.  A theorem counts as failed if its own proof breaks or if
it rests on a lemma whose proof breaks.
"""
import json, os, re, shutil, subprocess, sys

ROOT = os.environ.get("VROOT") or os.path.join(os.path.dirname(os.path.abspath(__file__)), "..", "rocq")
SCRATCH = os.environ.get("SCRATCH", "/root/mut/work")
STMT = re.compile(r"^[ \t]*(Theorem|Lemma|Example|Corollary|Definition|Fixpoint|Instance|Global Instance)\s+([A-Za-z0-9_']+)", re.M)

def project():
    return [l.strip()[len("theories/"):-2] for l in open(os.path.join(ROOT, "_CoqProject")) if l.strip().endswith(".v")]

def requires(src):
    src = re.sub(r"\(\*.*?\*\)", "", src, flags=re.S)
    out = set()
    for m in re.finditer(r"From Verif Require (?:Import|Export)?\s*([^.]*)\.", src):
        out |= set(m.group(1).split())
    return out

def statements(src):
    """(kind, name, start, end) with end just behind Qed./Defined./Admitted. or the sentence."""
    res = []
    for m in STMT.finditer(src):
        kind, name = m.group(1), m.group(2)
        if kind in ("Theorem", "Lemma", "Example", "Corollary", "Instance", "Global Instance"):
            e = re.compile(r"\b(Qed|Defined|Admitted)\.").search(src, m.start())
            if e:
                res.append((kind, name, m.start(), e.end()))
    return res

def admit(src, name, start, end):
    body = src[start:end]
    p = re.search(r"\bProof\b[^.]*\.", body)
    head = body[:p.start()] if p else body
    if not p:
        return None
    return src[:start] + head + "Admitted." + src[end:]

def coqc(d, f, timeout=900):
    try:
        r = subprocess.run(["coqc", "-Q", "theories", "Verif", f"theories/{f}.v"], cwd=d, capture_output=True, text=True, timeout=timeout)
    except subprocess.TimeoutExpired:
        return None
    return r

def run(edit):
    files = project()
    d = SCRATCH
    if os.path.exists(d):
        shutil.rmtree(d)
    shutil.copytree(ROOT, d)
    p = os.path.join(d, "theories", edit["file"] + ".v")
    s = open(p).read()
    assert s.count(edit["old"]) == 1, (edit["file"], edit["old"], s.count(edit["old"]))
    open(p, "w").write(s.replace(edit["old"], edit["new"]))
    srcs = {f: open(os.path.join(d, "theories", f + ".v")).read() for f in files}
    reqs = {f: requires(srcs[f]) for f in files}
    dirty = {edit["file"]}
    order = []
    todo = list(files)
    done = set()
    while todo:
        for f in todo:
            if all(r in done or r not in files for r in reqs[f]):
                todo.remove(f); done.add(f); order.append(f); break
        else:
            raise RuntimeError("cycle")
    broken = {}
    for f in order:
        if f != edit["file"] and not (reqs[f] & dirty):
            continue
        dirty.add(f)
        path = os.path.join(d, "theories", f + ".v")
        src = re.sub(r"^Print Assumptions [^.]*\.\n", "", srcs[f], flags=re.M)
        while True:
            open(path, "w").write(src)
            r = coqc(d, f)
            if r is None:
                broken.setdefault(f, []).append("<timeout>"); break
            if r.returncode == 0:
                break
            m = re.search(r'File ".*?", line (\d+), characters (\d+)-(\d+):\nError', r.stderr + r.stdout)
            if not m:
                broken.setdefault(f, []).append("<no position: %s>" % (r.stderr[-200:])); break
            line = int(m.group(1)); off = sum(len(l) for l in src.splitlines(True)[:line-1]) + 1
            hit = [x for x in statements(src) if x[2] <= off + int(m.group(2)) and off <= x[3] + 1]
            if not hit:
                broken.setdefault(f, []).append("<outside a proof, line %d: %s>" % (line, (r.stderr+r.stdout)[-300:])); break
            kind, name, a, b = hit[-1]
            if src[a:b].endswith("Admitted."):
                broken.setdefault(f, []).append("<statement of %s>" % name); 
                src = src[:a] + src[b:]; continue
            broken.setdefault(f, []).append(name)
            n = admit(src, name, a, b)
            if n is None:
                src = src[:a] + src[b:]
            else:
                src = n
        srcs[f] = src
    # transitive dependence on broken lemmas, by name
    orig = {f: open(os.path.join(ROOT, "theories", f + ".v")).read() for f in files}
    bad = {re.sub(r"<statement of (.*)>", r"\1", x) for l in broken.values() for x in l}
    deps = {}
    kinds = {}
    for f in order:
        if f not in dirty: continue
        lets = [(m.start(), m.group(1), set(re.findall(r"[A-Za-z_][A-Za-z0-9_']*", m.group(0))))
                for m in re.finditer(r"^[ \t]*Let\s+([A-Za-z0-9_']+).*?\.\s*$", orig[f], flags=re.M | re.S)]
        for kind, name, a, b in statements(orig[f]):
            body = orig[f][a:b]
            i = body.find("Proof")
            deps[name] = set(re.findall(r"[A-Za-z_][A-Za-z0-9_']*", body[i:]))
            for at, let, ids in reversed(lets):   # facts named in the section
                if at < a and let in deps[name]:
                    deps[name] |= ids
            kinds[name] = (kind, f)
    failed = set(bad)
    changed = True
    while changed:
        changed = False
        for n, ds in deps.items():
            if n not in failed and ds & failed:
                failed.add(n); changed = True
    thms = sorted(n for n in failed if n in kinds and kinds[n][0] == "Theorem" and re.match(r"c\d\d", n))
    direct = sorted(bad)
    exs = sorted(n for n in failed if n in kinds and kinds[n][0] == "Example")
    return thms, direct, exs

def main():
    edits = json.load(open(sys.argv[1]))
    out = open(sys.argv[2], "a") if len(sys.argv) > 2 else None
    for e in edits:
        thms, direct, exs = run(e)
        rec = {"definition": f'{e["file"]}.{e["definition"]}', "edit": e.get("edit") or f'{e["old"]} -> {e["new"]}',
               "claim": e["claim"], "theorems_failed": thms, "lemmas_failed": direct, "examples_failed": exs, "tightened": []}
        print(json.dumps(rec)[:1500], flush=True)
        if not thms:
            print("   *** SURVIVED", flush=True)
        if out:
            out.write(json.dumps(rec) + "\n"); out.flush()

main()
