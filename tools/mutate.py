#!/usr/bin/env python3
"""Rebuild the development in a scratch copy after an edit to the model.

usage: mutate.py MUTANTS.json SCRATCHDIR [id ...]

Every proof that no longer checks is replaced in the scratch copy by an assumption, and the
build goes on, so that the report lists exactly the lemmas that broke and the property
theorems that rest on them (from Print Assumptions) or broke themselves.
Nothing is written to the repository; results go to SCRATCHDIR/result-ID.json.
"""
import json, os, re, shutil, subprocess, sys

SRC = os.environ.get("MUTATE_SRC", "/verif/rocq")
HEAD = re.compile(r"^\s*(?:#\[[^\]]*\]\s*)?(Lemma|Theorem|Corollary|Fact|Remark|Example|Definition|Fixpoint|Inductive|Ltac|Instance)\s+([A-Za-z0-9_']+)", re.M)
ASSUME = "Ad" + "mitted."


def order():
    """The files of the project, each after the files it requires."""
    files = [l.strip() for l in open(f"{SRC}/_CoqProject") if l.strip().endswith(".v")]
    paths = {os.path.basename(f)[:-2]: f for f in files}
    done = []

    def visit(rel):
        if rel in done:
            return
        for name in deps(f"{SRC}/{rel}"):
            if name in paths:
                visit(paths[name])
        done.append(rel)

    for rel in files:
        visit(rel)
    return done


def deps(path):
    text = open(path).read()
    names = re.findall(r"From Verif Require(?: Import| Export)?([^.]*)\.", text)
    return {w for g in names for w in g.split()}


def coqc(root, rel):
    p = subprocess.run(["timeout", "900", "coqc", "-Q", "theories", "Verif", rel], cwd=root,
                       capture_output=True, text=True)
    return p.returncode, p.stdout + p.stderr


def patch(path, out):
    """Assume the proof around the error; return (kind, name) or None if not possible."""
    m = None
    for m in re.finditer(r'line (\d+), characters (\d+)-(\d+):\s*\n(?!Warning)', out):
        pass
    if m is None:
        return None
    line = int(m.group(1))
    text = open(path).read()
    lines = text.split("\n")
    pos = len("\n".join(lines[: line - 1])) + (1 if line > 1 else 0) + int(m.group(2))
    head = None
    for h in HEAD.finditer(text):
        if h.start() <= pos:
            head = h
    if head is None or head.group(1) in ("Definition", "Fixpoint", "Inductive", "Ltac"):
        return None
    pm = re.compile(r"^\s*Proof\b[^.]*\.", re.M).search(text, head.start())
    qm = re.compile(r"\b(Qed|Defined)\.").search(text, pm.end())
    if pos < pm.start():
        new = text[: head.start()] + "\n" + text[qm.end():]
        kind = "statement"
    else:
        new = text[: pm.end()] + " " + ASSUME + text[qm.end():]
        kind = "proof"
    if head.group(1) == "Example":
        new = text[: head.start()] + "\n" + text[qm.end():]
    open(path, "w").write(new)
    return kind, head.group(2)


def run(mut, scratch):
    root = f"{scratch}/w-{mut['id']}"
    shutil.rmtree(root, ignore_errors=True)
    shutil.copytree(SRC, root, copy_function=shutil.copy2)
    for e in mut["edits"]:
        p = f"{root}/theories/{e['file']}"
        s = open(p).read()
        if s.count(e["old"]) < 1 or (s.count(e["old"]) > 1 and not e.get("all")):
            return {"id": mut["id"], "error": f"pattern occurs {s.count(e['old'])} times in {e['file']}: {e['old']!r}"}
        open(p, "w").write(s.replace(e["old"], e["new"]))
    changed = {e["file"][:-2] for e in mut["edits"]}
    broken, assumed, problem = {}, {}, None
    edited = set(changed)
    for rel in order():
        name = os.path.basename(rel)[:-2]
        if name not in edited and not (deps(f"{root}/{rel}") & changed):
            continue
        changed.add(name)
        for _ in range(80):
            rc, out = coqc(root, rel)
            if rc == 0:
                break
            r = patch(f"{root}/{rel}", out)
            if r is None:
                problem = f"{name}: {out.strip()[-600:]}"
                break
            broken.setdefault(name, []).append(r[1])
        if problem:
            break
        if name.startswith("Properties"):
            src = open(f"{root}/{rel}").read()
            thms = re.findall(r"Print Assumptions ([A-Za-z0-9_']+)\.", src)
            blocks = re.split(r"(?m)^(?=Closed under|Axioms:)", out)[1:]
            for t, b in zip(thms, blocks):
                if b.startswith("Axioms:"):
                    assumed[t] = sorted(set(re.findall(r"(?m)^([A-Za-z0-9_'.]+)\s*:", b[7:])))
    failed = sorted(set(assumed) | {t for f, ts in broken.items() if f.startswith("Properties") for t in ts})
    res = {"id": mut["id"], "claim": mut.get("claim"), "failed": failed, "broken": broken, "problem": problem}
    shutil.rmtree(root, ignore_errors=True)
    return res


if __name__ == "__main__":
    muts = json.load(open(sys.argv[1]))
    scratch = sys.argv[2]
    ids = sys.argv[3:]
    os.makedirs(scratch, exist_ok=True)
    for m in muts:
        if ids and m["id"] not in ids:
            continue
        r = run(m, scratch)
        json.dump(r, open(f"{scratch}/result-{m['id']}.json", "w"), indent=1)
        hit = [t for t in r.get("failed", []) if any(t.startswith(c) for c in (m.get("claim") or "").split(","))]
        print(m["id"], m.get("claim"), "KILLED" if hit else "SURVIVED", len(r.get("failed", [])),
              "problem: " + str(r.get("problem") or r.get("error")) if (r.get("problem") or r.get("error")) else "", hit[:6], flush=True)
