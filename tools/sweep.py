#!/usr/bin/env python3
"""Sweeps the model for small wrong edits.

Usage: sweep.py OUT.jsonl [seed [count]]

Every definition of the model files is edited at random places in the ways that bugs arise: a number off by one, a comparison or an operator for
another, a negated boolean, a missed case, a successor dropped, two arguments or two cases swapped. An edit that does not compile is no program and
is dropped. The rest is rebuilt up to the first proof of a lemma or theorem that fails; examples do not count. OUT gets one line per edit, with the
properties that rest on the failed proof. An edit after which everything builds is a survivor."""
import json, os, random, re, shutil, subprocess, sys

ROOT = os.path.dirname(os.path.dirname(os.path.abspath(__file__)))
SRC = os.environ.get("MUT_SRC", os.path.join(ROOT, "rocq"))
WORK = os.environ.get("MUT_WORK", "/tmp/sweepw")
JOBS = int(os.environ.get("MUT_JOBS", "2"))
MODELS = os.environ.get("MUT_MODELS", "Base Streams Utf8 Types Traits Encode Decode Sized Slot Mem SizedSlice SizedIter SizedStr Owned Shared Heap Macro "
                        "ErrorText RustSyntax Codegen Recursive User Exchange IterUse Unwind Raw Format").split()
sys.argv[0] = "sweep"
HEAD = re.compile(r"^\s*(?:Local |Global )?(Theorem|Lemma|Example|Corollary|Fact|Remark|Definition|Fixpoint|Inductive|Record|with)\s+(\w+)", re.M)


def blank_comments(s):
    out, depth, i = [], 0, 0
    while i < len(s):
        if s.startswith("(*", i):
            depth += 1; out.append("  "); i += 2
        elif s.startswith("*)", i) and depth:
            depth -= 1; out.append("  "); i += 2
        else:
            out.append(s[i] if depth == 0 or s[i] == "\n" else " "); i += 1
    return "".join(out)


def definitions(s):
    """(name, start, end) of the definitions that compute something."""
    b = blank_comments(s)
    for m in re.finditer(r"^(Definition|Fixpoint|Inductive)\s+(\w+)", b, re.M):
        e = re.compile(r"\.(?=\s|$)").search(b, m.end())
        yield m.group(2), m.start(), e.end(), m.group(1)


RULES = [
    (r"(?<![\w.])(\d+)(?![\w])", lambda m: [str(int(m.group(1)) + 1)] + ([str(int(m.group(1)) - 1)] if int(m.group(1)) > 0 else [])),
    (r"<=\?", lambda m: ["<?"]), (r"(?<![<=>])<\?", lambda m: ["<=?"]),
    (r" \+ ", lambda m: [" - "]), (r" - ", lambda m: [" + "]), (r" \* ", lambda m: [" + "]),
    (r"&&", lambda m: ["||"]), (r"\|\|", lambda m: ["&&"]),
    (r"\btrue\b", lambda m: ["false"]), (r"\bfalse\b", lambda m: ["true"]),
    (r"\bfirstn\b", lambda m: ["skipn"]), (r"\bskipn\b", lambda m: ["firstn"]),
    (r"\bS (?=\w)", lambda m: [""]), (r"\bnegb ", lambda m: [""]),
    (r"\bMin\b|N\.min|Nat\.min", lambda m: [m.group(0).replace("min", "max")]), (r"N\.max|Nat\.max", lambda m: [m.group(0).replace("max", "min")]),
    (r"\brev ", lambda m: [""]),
    (r"\bif ((?:(?!\bif\b|\bthen\b)[^\n])+) then", lambda m: ["if negb (" + m.group(1) + ") then"]),
    (r"(?<=\w )(\([^()\n]*\)) (\([^()\n]*\))", lambda m: [m.group(2) + " " + m.group(1)]),      # two longer arguments swapped
    (r"(?<=\w )(\([^()\n]*\)) (\w+)(?=[\s)])", lambda m: [m.group(2) + " " + m.group(1)]),
    (r"\b(flat_map|map|filter) (\w+) (\w+)", lambda m: ["[]"]),
    (r"\bcons (\w+)", lambda m: ["(fun r => r)"]),
    (r"\bx0([0-9])\b", lambda m: ["x0" + str((int(m.group(1)) + 1) % 10)]),
    (r"\blength \((\w+ \w+)\)", lambda m: ["pred (length (" + m.group(1) + "))"]),
    (r"(?<=\w )\b(?!with|match|then|else|end|in|fun|if|let)(\w+) (?!with|match|then|else|end|in|fun|if|let)(\w+)(?=[\s)])", lambda m: [m.group(2) + " " + m.group(1)]),          # two arguments swapped
    (r"(?<=[ (])fst (?=\w)", lambda m: ["snd "]), (r"(?<=[ (])snd (?=\w)", lambda m: ["fst "]),
    (r"\bUsize\b", lambda m: ["U16", "Isize"]), (r"\bU8\b", lambda m: ["I8", "U16"]),
    (r"\b(emap_err|dmap_err) \([^()]*\) ", lambda m: [m.group(1) + " (fun e => e) "]),
    (r"\b(emap_err|dmap_err) (\w+) ", lambda m: [m.group(1) + " (fun e => e) "]),
    (r" \+\+ ", lambda m: [" ++ [] ++ "] if False else []),
    (r"(\w+) \+\+ (\w+)", lambda m: [m.group(2) + " ++ " + m.group(1), m.group(1), m.group(2)]),
    (r"Some (\w+)", lambda m: ["None"]),
    (r"\bOk tt\b", lambda m: ["Err tt"]),
    (r"^  \| [^\n]*\n", lambda m: [""]),                                               # a case missed
    (r"\| [\w ]+ (?=\| \w)", lambda m: [""]),                                           # one alternative of a case missed
    (r"P(Output|Input|Index|Assert|Arith|Unreachable|Duration|Infallible)\b", lambda m: ["PStuck"]),
    (r"U(OutOfBounds|Uninit|ZeroAlloc|Underflow|Range|Text)\b(?= )", lambda m: []),
]


def candidates(name):
    s = open(os.path.join(SRC, "theories", name + ".v")).read()
    b = blank_comments(s)
    for d, i, j, kind in definitions(s):
        if kind == "Inductive":
            continue
        body = b.find(":=", i, j)
        if body < 0:
            continue
        for pat, f in RULES:
            for m in re.compile(pat, re.M).finditer(b, body, j):
                for new in f(m):
                    if new != m.group(0):
                        yield {"file": name, "def": d, "at": m.start(), "old": s[m.start():m.end()], "new": new, "line": s[:m.start()].count("\n") + 1}


def deps(dirname):
    out = subprocess.run("coqdep -Q theories Verif theories/*.v", shell=True, cwd=dirname, capture_output=True, text=True).stdout
    d = {}
    for line in out.splitlines():
        left, _, right = line.partition(":")
        m = re.match(r"theories/(\w+)\.vo\b", left)
        if m:
            d[m.group(1)] = [re.match(r"theories/(\w+)\.vo$", x).group(1) for x in right.split() if re.match(r"theories/\w+\.vo$", x)]
    return d


def statement_at(path, offset):
    s = open(path, "rb").read()
    head = None
    for m in re.finditer(rb"^\s*(?:Local |Global )?(Theorem|Lemma|Example|Corollary|Fact|Remark|Definition|Fixpoint)\s+(\w+)", s, re.M):
        if m.start() <= offset:
            head = m
    return (head.group(1).decode(), head.group(2).decode(), head.start()) if head else ("?", "?", 0)


def admit_example(path, start):
    s = open(path, "rb").read()
    b = re.compile(rb"\bProof\b[^.]*\.").search(s, start)
    e = re.compile(rb"\b(Qed|Defined)\.").search(s, b.end())
    open(path, "wb").write(s[:b.start()] + b"Admitted." + s[e.end():])


def cone():
    """property theorem -> names its proof mentions, transitively (by text)"""
    uses, props = {}, []
    for f in os.listdir(os.path.join(SRC, "theories")):
        if f.endswith(".v"):
            s = blank_comments(open(os.path.join(SRC, "theories", f)).read())
            ms = list(HEAD.finditer(s))
            for m, n in zip(ms, ms[1:] + [None]):
                if m.group(1) in ("Theorem", "Lemma", "Corollary", "Fact", "Remark"):
                    uses.setdefault(m.group(2), set()).update(re.findall(r"\w+", s[m.end(): n.start() if n else len(s)]))
                    if f.startswith("Properties"):
                        props.append(m.group(2))
    out = {}
    for p in props:
        seen, todo = {p}, [p]
        while todo:
            for y in uses.get(todo.pop(), ()):
                if y in uses and y not in seen:
                    seen.add(y); todo.append(y)
        for x in seen:
            out.setdefault(x, set()).add(p)
    return out


def build(mut, d):
    subprocess.run(["rsync", "-a", "--delete", os.path.join(SRC, "theories"), WORK]) if shutil.which("rsync") else (
        shutil.rmtree(os.path.join(WORK, "theories"), ignore_errors=True), subprocess.run(["cp", "-a", os.path.join(SRC, "theories"), WORK]))
    path = os.path.join(WORK, "theories", mut["file"] + ".v")
    s = open(path).read()
    assert s[mut["at"]:mut["at"] + len(mut["old"])] == mut["old"]
    open(path, "w").write(s[:mut["at"]] + mut["new"] + s[mut["at"] + len(mut["old"]):])
    dirty = {mut["file"]}
    while True:
        more = {f for f, ds in d.items() if f not in dirty and any(x in dirty for x in ds)}
        if not more:
            break
        dirty |= more
    dirty -= {"RepoTests", "RepoTestsMore"}
    for f in dirty:
        p = os.path.join(WORK, "theories", f + ".vo")
        if os.path.exists(p):
            os.remove(p)
    done, running, pending = set(), {}, set(dirty)
    def start(f):
        return subprocess.Popen(["timeout", "150", "coqc", "-q", "-Q", "theories", "Verif", f"theories/{f}.v"], cwd=WORK,
                                start_new_session=True, stdout=subprocess.DEVNULL, stderr=subprocess.PIPE, text=True, errors="replace")
    try:
        while pending or running:
            for f in sorted(pending):
                if len(running) < JOBS and all(x not in dirty or x in done for x in d.get(f, [])):
                    running[f] = start(f)
                    pending.discard(f)
            f = next((f for f, p in running.items() if p.poll() is not None), None)
            if f is None:
                import time
                time.sleep(0.05)
                continue
            p = running.pop(f)
            err = p.stderr.read()
            if p.returncode == 0:
                done.add(f)
                continue
            fp = os.path.join(WORK, "theories", f + ".v")
            m = None
            for m in re.finditer(r'File "[^"]*", line (\d+), characters (\d+)-(\d+):', err):
                pass
            if m is None:
                return {"killed": f, "by": "timeout" if p.returncode == 124 else err[-200:]}
            src = open(fp, "rb").read()
            offset = sum(len(x) + 1 for x in src.split(b"\n")[: int(m.group(1)) - 1]) + int(m.group(2))
            kind, what, at = statement_at(fp, offset)
            if kind in ("Definition", "Fixpoint", "?"):
                if f == mut["file"]:
                    return {"invalid": err[-200:]}
                return {"killed": f, "by": what}
            if kind == "Example":
                admit_example(fp, at)
                pending.add(f)
                continue
            return {"killed": f, "by": what}
        return {"survives": True}
    finally:
        for p in running.values():
            os.killpg(p.pid, 9)
            p.wait()


def main():
    out = sys.argv[1]
    seed = int(sys.argv[2]) if len(sys.argv) > 2 else 1
    count = int(sys.argv[3]) if len(sys.argv) > 3 else 300
    rnd = random.Random(seed)
    os.makedirs(WORK, exist_ok=True)
    d = deps(SRC)
    on = cone()
    bydef = {}
    for f in MODELS:
        for c in candidates(f):
            bydef.setdefault((f, c["def"]), []).append(c)
    for cs in bydef.values():
        rnd.shuffle(cs)
    seen = set()
    if os.path.exists(out):
        for x in open(out):
            x = json.loads(x)
            seen.add((x["file"], x["def"], x["line"], x["old"], x["new"]))
    queue, rounds = [], max(len(c) for c in bydef.values())
    for k in range(rounds):
        layer = [cs[k] for cs in bydef.values() if k < len(cs)]
        rnd.shuffle(layer)
        queue += layer
    print(len(queue), "candidates in", len(bydef), "definitions", flush=True)
    n = 0
    for mut in queue:
        if (mut["file"], mut["def"], mut["line"], mut["old"], mut["new"]) in seen:
            continue
        if n >= count:
            break
        r = build(mut, d)
        rec = {k: mut[k] for k in ("file", "def", "line", "old", "new")}
        rec.update(r)
        if "killed" in r:
            rec["properties"] = sorted(on.get(r["by"], ()))
            if not rec["properties"]:
                rec["note"] = "no property rests on the failed proof"
        with open(out, "a") as f:
            f.write(json.dumps(rec) + "\n")
        if "invalid" not in r:
            n += 1
        if "survives" in r or rec.get("note"):
            print(rec, flush=True)


main()
