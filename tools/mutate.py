#!/usr/bin/env python3
"""Tests the theorems against wrong programs.

Usage: mutate.py MUTANTS.json [id ...]

Each mutant is an edit of one model file, or of the text of the program itself, from which the trees of Source*.v are generated again. In a scratch copy the edit is made and everything is rebuilt; a proof that fails is replaced by
Admitted so that the rest can be checked. A theorem of Properties*.v is broken if its own proof fails or if Print Assumptions lists an admitted lemma.
One line is appended to seeded/LOG.jsonl. A mutant none of whose claims has a broken theorem is reported as a survivor."""
import json, os, re, shutil, subprocess, sys
from concurrent.futures import ThreadPoolExecutor

ROOT = os.path.dirname(os.path.dirname(os.path.abspath(__file__)))
SRC = os.environ.get("MUT_SRC", os.path.join(ROOT, "rocq"))
REPO = os.environ.get("MUT_REPO", "/repo")
WORK = os.environ.get("MUT_WORK", "/tmp/mut")
TIMEOUT = int(os.environ.get("MUT_TIMEOUT", "90"))
STEP = re.compile(r"^\s*(?:Local |Global |#\[.*?\] )?(Theorem|Lemma|Example|Corollary|Fact|Remark)\s+(\w+)", re.M)


def deps(dirname):
    out = subprocess.run("coqdep -Q theories Verif theories/*.v", shell=True, cwd=dirname, capture_output=True, text=True).stdout
    d = {}
    for line in out.splitlines():
        left, _, right = line.partition(":")
        m = re.match(r"theories/(\w+)\.vo\b", left)
        if m:
            d[m.group(1)] = [re.match(r"theories/(\w+)\.vo$", x).group(1) for x in right.split() if re.match(r"theories/\w+\.vo$", x)]
    return d


def admit(path, offset):
    """Replaces the proof around byte [offset] by Admitted; returns the name of the statement."""
    s = open(path, "rb").read()
    begin = None
    for m in re.finditer(rb"\bProof\b[^.]*\.", s):
        if m.start() <= offset:
            begin = m
    head = None
    for m in re.finditer(rb"^\s*(?:Local |Global )?(?:Theorem|Lemma|Example|Corollary|Fact|Remark|Definition|Fixpoint)\s+(\w+)", s, re.M):
        if m.start() <= offset:
            head = m
    if begin is None or (head is not None and head.start() > begin.start()):
        return None, head.group(1).decode() if head else "?"
    end = re.compile(rb"\b(Qed|Defined)\.").search(s, begin.end())
    if end is None or end.end() < offset:
        return None, head.group(1).decode()
    s = s[:begin.start()] + b"Admitted." + s[end.end():]
    open(path, "wb").write(s)
    return True, head.group(1).decode()


def compile_file(dirname, name):
    """Compiles, admitting what fails. Returns (names admitted, output) or raises."""
    path = os.path.join(dirname, "theories", name + ".v")
    failed = []
    while True:
        p = subprocess.run(["timeout", str(TIMEOUT), "coqc", "-time", "-q", "-Q", "theories", "Verif", path], cwd=dirname, capture_output=True, text=True,
                           errors="replace")
        if p.returncode == 0:
            return failed, p.stdout
        if p.returncode == 124 or p.returncode < 0 or "Error" not in p.stderr:
            chars = re.findall(r"^Chars (\d+) - (\d+)", p.stdout, re.M)
            offset = int(chars[-1][1]) + 1 if chars else 0
        else:
            m = re.search(r'File "[^"]*", line (\d+), characters (\d+)-(\d+):\s*\n\s*(?:Error|.*\n.*Error)', p.stderr)
            m = m or re.findall(r'File "[^"]*", line (\d+), characters (\d+)-(\d+):', p.stderr)[-1:]
            m = m if isinstance(m, re.Match) else None
            if m is None:
                allm = list(re.finditer(r'line (\d+), characters (\d+)-(\d+):', p.stderr))
                m = allm[-1]
            line, col = int(m.group(1)), int(m.group(2))
            s = open(path, "rb").read()
            offset = sum(len(x) + 1 for x in s.split(b"\n")[: line - 1]) + col
        ok, what = admit(path, offset)
        if not ok:
            raise RuntimeError(f"{name}: not in a proof, near {what}: {p.stderr[-600:]}")
        failed.append(what)


def run(mut):
    shutil.rmtree(WORK, ignore_errors=True)
    os.makedirs(WORK)
    subprocess.run(["cp", "-a", os.path.join(SRC, "theories"), WORK])
    edits = mut["edits"] if "edits" in mut else [mut]
    changed = set()
    rust = [e for e in edits if "rust" in e]
    if rust:
        # edits of the text of the program: the trees are generated again from an edited copy
        shutil.rmtree(WORK + "_rust", ignore_errors=True)
        for part in ("oct/src", "oct-macros/src"):
            shutil.copytree(os.path.join(REPO, part), os.path.join(WORK + "_rust", part))
        shutil.copy(os.path.join(REPO, "oct/Cargo.toml"), WORK + "_rust/oct/Cargo.toml")
        os.makedirs(WORK + "_rust/out")
        for e in rust:
            path = os.path.join(WORK + "_rust", e["rust"])
            s = open(path).read()
            if s.count(e["old"]) != 1:
                return {"error": f"pattern occurs {s.count(e['old'])} times: {e['old']}"}
            open(path, "w").write(s.replace(e["old"], e["new"]))
        p = subprocess.run([sys.executable, os.path.join(ROOT, "tools/rust2v.py"), WORK + "_rust/oct/src", WORK + "_rust/out"], capture_output=True, text=True)
        if p.returncode != 0:
            return {"error": "rust2v: " + p.stderr[-300:]}
        p = subprocess.run([sys.executable, os.path.join(ROOT, "tools/cfg2v.py"), WORK + "_rust/oct", WORK + "_rust/out"], capture_output=True, text=True)
        if p.returncode != 0:
            return {"error": "cfg2v: " + p.stderr[-300:]}
        for f in os.listdir(WORK + "_rust/out"):
            new, old = os.path.join(WORK + "_rust/out", f), os.path.join(WORK, "theories", f)
            if open(new).read() != open(old).read():
                shutil.copy(new, old)
                changed.add(f[:-2])
    for e in [e for e in edits if "rust" not in e]:
        path = os.path.join(WORK, "theories", e["file"] + ".v")
        s = open(path).read()
        if s.count(e["old"]) != 1:
            return {"error": f"pattern occurs {s.count(e['old'])} times: {e['old']}"}
        open(path, "w").write(s.replace(e["old"], e["new"]))
        changed.add(e["file"])
    d = deps(WORK)
    dirty = set(changed)
    while True:
        more = {f for f, ds in d.items() if f not in dirty and any(x in dirty for x in ds)}
        if not more:
            break
        dirty |= more
    if "only" in mut:
        # only these files and what they need
        need, todo = set(), list(mut["only"])
        while todo:
            f = todo.pop()
            if f not in need:
                need.add(f)
                todo += d.get(f, [])
        for f in dirty - need:
            os.remove(os.path.join(WORK, "theories", f + ".v"))
        dirty &= need
    for f in dirty:
        for ext in ("vo", "vok", "vos", "glob"):
            p = os.path.join(WORK, "theories", f + "." + ext)
            if os.path.exists(p):
                os.remove(p)
    failed, broken, done, pending = {}, set(), set(), set(dirty)
    outputs = {}
    try:
        with ThreadPoolExecutor(4) as ex:
            running = {}
            while pending or running:
                for f in sorted(pending):
                    if len(running) < 4 and all(x not in dirty or x in done for x in d.get(f, [])):
                        running[f] = ex.submit(compile_file, WORK, f)
                        pending.discard(f)
                import concurrent.futures as cf
                cf.wait(running.values(), return_when=cf.FIRST_COMPLETED)
                for f in [f for f, fut in running.items() if fut.done()]:
                    names, out = running.pop(f).result()
                    if names:
                        failed[f] = names
                    outputs[f] = out
                    done.add(f)
    except RuntimeError as e:
        return {"error": str(e)}
    for f, out in outputs.items():
        if not f.startswith("Properties"):
            continue
        out = "\n".join(x for x in out.splitlines() if not x.startswith("Chars "))
        # the reports come in the order of the Print Assumptions commands
        names = re.findall(r"^Print Assumptions (\w+)", open(os.path.join(WORK, "theories", f + ".v")).read(), re.M)
        reports = re.findall(r"^(Closed under the global context|Axioms:)", out, re.M)
        assert len(names) == len(reports), (f, len(names), len(reports))
        broken |= {n for n, r in zip(names, reports) if r == "Axioms:"}
        broken |= {n for n in failed.get(f, []) if n in names}
    return {"lemmas": failed, "broken": sorted(broken)}


def main():
    muts = json.load(open(sys.argv[1]))
    only = set(sys.argv[2:])
    log = os.path.join(ROOT, "seeded", "LOG.jsonl")
    seen = {json.loads(x)["id"] for x in open(log)} if os.path.exists(log) else set()
    for mut in muts:
        if (only and mut["id"] not in only) or (not only and mut["id"] in seen):
            continue
        r = run(mut)
        if "error" in r:
            print(mut["id"], "ERROR", r["error"], flush=True)
            continue
        hit = [c for c in mut["claims"] if any(b.startswith(c + "_") for b in r["broken"])]
        missed = [c for c in mut["claims"] if c not in hit]
        print(mut["id"], "survives " + ",".join(missed) if missed else "caught", "|", " ".join(r["broken"]), flush=True)
        edits = mut["edits"] if "edits" in mut else [mut]
        rec = {"id": mut["id"], "definition": ", ".join(e.get("rust") or e["file"] + "." + e["def"] for e in edits), "edit": mut["why"],
               "change": [{"old": e["old"], "new": e["new"]} for e in edits],
               "claim": mut["claims"], "failed": r["broken"], "first_lemmas": r["lemmas"],
               "result": "caught" if not missed else "not caught: " + ", ".join(missed), "tightened": []}
        with open(log, "a") as f:
            f.write(json.dumps(rec, ensure_ascii=False) + "\n")


main()
