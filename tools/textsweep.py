#!/usr/bin/env python3
"""Sweeps the text of the program for small wrong edits.

Usage: textsweep.py OUT.jsonl [seed [count]]

As sweep.py, but it is the Rust of oct/src and oct-macros/src that is edited, in a copy. The trees of Source*.v are generated again from the edited copy,
and what depends on them is rebuilt up to the first proof of a lemma or theorem that fails. An edit that the translation cannot read is no program; one
that it drops is reported as such; one after which everything builds is a survivor."""
import json, os, random, re, shutil, subprocess, sys, time

ROOT = os.path.dirname(os.path.dirname(os.path.abspath(__file__)))
SRC = os.environ.get("MUT_SRC", os.path.join(ROOT, "rocq"))
REPO = os.environ.get("MUT_REPO", "/repo")
WORK = os.environ.get("MUT_WORK", "/tmp/textw")
JOBS = int(os.environ.get("MUT_JOBS", "2"))
TIMEOUT = os.environ.get("MUT_TIMEOUT", "900")
code = open(os.path.join(ROOT, "tools/sweep.py")).read()
sw = {"__file__": os.path.join(ROOT, "tools/sweep.py")}
argv, sys.argv = sys.argv, ["sweep", ""]
exec(code[:code.rindex("\nmain()")], sw)
sys.argv = argv

def num(m):
    n = int(m.group(0), 0)
    f = (lambda k: hex(k).upper().replace("X", "x")) if m.group(0).startswith("0x") else str
    return [f(n + 1)] + ([f(n - 1)] if n > 0 else [])

PAIRS = [("start", "end"), ("to_le_bytes", "to_be_bytes"), ("from_le_bytes", "from_be_bytes"), ("checked_add", "checked_sub"), ("len", "capacity"),
         ("self.pos", "self.len"), ("capacity", "position"), ("position", "count"), ("u8", "u16"), ("u16", "i16"), ("u16", "u32"), ("u64", "i64"), ("add", "sub"),
         ("key", "value"), ("Ok", "Err"), ("lhs", "rhs"), ("MIN", "MAX"), ("IpAddr::V4", "IpAddr::V6"), ("Included", "Excluded"), ("SmallBuffer", "BadUtf8"),
         ("BadLength", "BadItem"), ("BadDiscriminant", "BadField"), ("min", "max"), ("Encode", "Decode"), ("as_slice", "as_mut_slice"), ("encode", "decode"),
         ("GenericEncodeError", "GenericDecodeError"), ("next", "next_back"), ("named", "unnamed"), ("Struct", "Enum"), ("index", "value"), ("error", "index")]
RULES = [(r"\b0x[0-9A-F]+\b|\b\d+\b", num), (r" <= ", lambda m: [" < "]), (r" >= ", lambda m: [" > "]), (r" < ", lambda m: [" <= "]), (r" > ", lambda m: [" >= "]),
         (r" == ", lambda m: [" != "]), (r" != ", lambda m: [" == "]), (r" \+ ", lambda m: [" - "]), (r" - ", lambda m: [" + "]), (r" \* ", lambda m: [" + "]),
         (r" \+= ", lambda m: [" -= ", " = "]), (r" -= ", lambda m: [" += "]), (r"&&", lambda m: ["||"]), (r"\|\|(?= )", lambda m: ["&&"]),
         (r"\btrue\b", lambda m: ["false"]), (r"\bfalse\b", lambda m: ["true"]), (r"!(?=\w+[.(])", lambda m: [""]),
         (r"\.\.=", lambda m: [".."]),
         (r"\n[ \t]*(?!let|use|type|const|return|pub|mod|extern|struct)[^\n{}]*;(?=\n)", lambda m: [""]),
         (r"\n[ \t]*[^\n{}]*=>[^\n{}]*,(?=\n)", lambda m: [""]),
         (r"(?<=\()(\w[\w.&]*), (\w[\w.&]*)(?=\))", lambda m: [m.group(2) + ", " + m.group(1)]),
         (r"\bSome\(\w+\)", lambda m: ["None"]),
         (r"<(\w+), (\w+)>", lambda m: ["<%s, %s>" % (m.group(2), m.group(1))]),
         (r"\.map_err\([^()]*\)", lambda m: [""]), (r"\.map_err\(Into::into\)", lambda m: [""]),
         (r"(?<=[:+]) \w+ \+ ", lambda m: [" "]), (r"\n\t\w+: [\w<>: ,]+,(?=\n)", lambda m: [""]),
         (r"#\w+,?(?= )", lambda m: [""])] + \
        [(r"\b%s\b" % re.escape(a), lambda m, b=b: [b]) for a, b in PAIRS] + [(r"\b%s\b" % re.escape(b), lambda m, a=a: [a]) for a, b in PAIRS]

def blank(s):
    """without comments and attributes, at the same places"""
    keep = lambda m: re.sub(r"[^\n]", " ", m.group(0))
    s = re.sub(r"//[^\n]*", keep, s)
    s = re.sub(r"/\*.*?\*/", keep, s, flags=re.S)
    return re.sub(r"#!?\[[^\n]*\]", keep, s)

def files():
    sys.path.insert(0, os.path.join(ROOT, "tools"))
    import rust2v
    fs = [f for _, l, _ in rust2v.MODULES if l for f in l] + ["error/" + f for f in sorted(os.listdir(REPO + "/oct/src/error")) if f != "mod.rs"]
    return [os.path.normpath("oct/src/" + f) for f in dict.fromkeys(fs)]

def candidates(f):
    s = open(os.path.join(REPO, f)).read()
    b = blank(s)
    cut = b.find("mod test")
    for pat, new in RULES:
        for m in re.finditer(pat, b if cut < 0 else b[:cut]):
            for n in new(m):
                if n != m.group(0):
                    yield {"file": f, "at": m.start(), "old": s[m.start():m.end()], "new": n, "line": s[:m.start()].count("\n") + 1}

def build(mut, d):
    shutil.rmtree(WORK + "_rust", ignore_errors=True)
    for part in ("oct/src", "oct-macros/src"):
        shutil.copytree(os.path.join(REPO, part), os.path.join(WORK + "_rust", part))
    os.makedirs(WORK + "_rust/out")
    path = os.path.join(WORK + "_rust", mut["file"])
    s = open(path).read()
    assert s[mut["at"]:mut["at"] + len(mut["old"])] == mut["old"]
    open(path, "w").write(s[:mut["at"]] + mut["new"] + s[mut["at"] + len(mut["old"]):])
    p = subprocess.run([sys.executable, os.path.join(ROOT, "tools/rust2v.py"), WORK + "_rust/oct/src", WORK + "_rust/out"], capture_output=True, text=True)
    if p.returncode != 0:
        return {"invalid": "rust2v: " + p.stderr[-100:]}
    shutil.copy(os.path.join(REPO, "oct/Cargo.toml"), WORK + "_rust/oct/Cargo.toml")
    p = subprocess.run([sys.executable, os.path.join(ROOT, "tools/cfg2v.py"), WORK + "_rust/oct", WORK + "_rust/out"], capture_output=True, text=True)
    if p.returncode != 0:
        return {"invalid": "cfg2v: " + p.stderr[-100:]}
    changed = {f[:-2] for f in os.listdir(WORK + "_rust/out")
               if open(os.path.join(WORK + "_rust/out", f)).read() != open(os.path.join(SRC, "theories", f)).read()}
    if "SourceNames" in changed:
        names = lambda p: set(re.findall(r"^\| (\w+)", open(p).read(), re.M))
        if names(WORK + "_rust/out/SourceNames.v") <= names(os.path.join(SRC, "theories/SourceNames.v")):
            changed.discard("SourceNames")
        else:
            return {"invalid": "a name that occurs nowhere else"}
    # citations of lines in comments are no change
    strip = lambda t: re.sub(r"\(\*.*?\*\)", "", t, flags=re.S)
    changed = {f for f in changed if strip(open(os.path.join(WORK + "_rust/out", f + ".v")).read()) != strip(open(os.path.join(SRC, "theories", f + ".v")).read())}
    if not changed:
        return {"dropped": "the translation leaves it out"}
    shutil.rmtree(os.path.join(WORK, "theories"), ignore_errors=True)
    subprocess.run(["cp", "-a", os.path.join(SRC, "theories"), WORK])
    for f in changed:
        shutil.copy(os.path.join(WORK + "_rust/out", f + ".v"), os.path.join(WORK, "theories", f + ".v"))
    dirty = set(changed)
    while True:
        more = {f for f, ds in d.items() if f not in dirty and any(x in dirty for x in ds)}
        if not more:
            break
        dirty |= more
    for f in dirty:
        p = os.path.join(WORK, "theories", f + ".vo")
        if os.path.exists(p):
            os.remove(p)
    done, running, pending = set(), {}, set(dirty)
    start = lambda f: subprocess.Popen(["timeout", TIMEOUT, "coqc", "-q", "-Q", "theories", "Verif", f"theories/{f}.v"], cwd=WORK, start_new_session=True,
                                       stdout=subprocess.DEVNULL, stderr=subprocess.PIPE, text=True, errors="replace")
    try:
        while pending or running:
            for f in sorted(pending):
                if len(running) < JOBS and all(x not in dirty or x in done for x in d.get(f, [])):
                    running[f] = start(f)
                    pending.discard(f)
            f = next((f for f, p in running.items() if p.poll() is not None), None)
            if f is None:
                time.sleep(0.05)
                continue
            p = running.pop(f)
            err = p.stderr.read()
            if p.returncode == 0:
                done.add(f)
                continue
            fp = os.path.join(WORK, "theories", f + ".v")
            m = None
            for m in re.finditer(r'File "[^"]*", line (\d+), characters (\d+)-(\d+):', err):
                pass
            if m is None:
                return {"killed": f, "by": "timeout" if p.returncode == 124 else err[-200:]}
            src = open(fp, "rb").read()
            offset = sum(len(x) + 1 for x in src.split(b"\n")[: int(m.group(1)) - 1]) + int(m.group(2))
            kind, what, at = sw["statement_at"](fp, offset)
            if kind in ("Definition", "Fixpoint", "?"):
                return {"invalid": err[-200:]} if f in changed else {"killed": f, "by": what}
            if kind == "Example":
                sw["admit_example"](fp, at)
                pending.add(f)
                continue
            return {"killed": f, "by": what}
        return {"survives": True}
    finally:
        for p in running.values():
            os.killpg(p.pid, 9)
            p.wait()

def main():
    out = sys.argv[1]
    rnd = random.Random(int(sys.argv[2]) if len(sys.argv) > 2 else 1)
    count = int(sys.argv[3]) if len(sys.argv) > 3 else 300
    os.makedirs(WORK, exist_ok=True)
    d = sw["deps"](SRC)
    on = sw["cone"]()
    seen = set()
    if os.path.exists(out):
        for x in map(json.loads, open(out)):
            seen.add((x["file"], x["line"], x["old"], x["new"]))
    per = {f: list(candidates(f)) for f in files()}
    # every line of every file in turn
    bylines = {}
    for f, cs in per.items():
        for c in cs:
            bylines.setdefault((f, c["line"]), []).append(c)
    for cs in bylines.values():
        rnd.shuffle(cs)
    queue = []
    for k in range(max(len(c) for c in bylines.values())):
        layer = [cs[k] for cs in bylines.values() if k < len(cs)]
        rnd.shuffle(layer)
        queue += layer
    print(len(queue), "candidates in", len(bylines), "lines of", len(per), "files", flush=True)
    n = 0
    for mut in queue:
        if (mut["file"], mut["line"], mut["old"], mut["new"]) in seen:
            continue
        if n >= count:
            break
        t = time.time()
        r = build(mut, d)
        rec = {k: mut[k] for k in ("file", "line", "old", "new")}
        rec.update(r)
        rec["seconds"] = round(time.time() - t)
        if "killed" in r:
            rec["properties"] = sorted(on.get(r["by"], ()))
            if not rec["properties"]:
                rec["note"] = "no property rests on the failed proof"
        with open(out, "a") as f:
            f.write(json.dumps(rec) + "\n")
        if "invalid" not in r:
            n += 1
        if "survives" in r or "dropped" in r or rec.get("note"):
            print(rec, flush=True)

main()
