#!/usr/bin/env python3
"""Translates what each file of the crate imports, defines and names, and under which `cfg`, into a Rocq term (theories/SpecBuild.v defines its shape).

usage: cfg2v.py /repo/oct OUTDIR            write SourceBuild.v
       cfg2v.py --check /repo/oct OUTDIR    only compare with what is there

Read from the text: `mod`, `use`, `extern crate`, items, variants of enumerations, and every path that stands in an item, each with the conjunction
of the `#[cfg(..)]` around it. The macros that the crate defines are expanded by their own rules. Left out: comments, other attributes, what
stands under `cfg(test)`, names after a dot, the macros of core, the generic parameters of an item and names that it binds itself (`use X as Y`,
`const`, `type`, parameters of associated types), and lower-case words that stand alone and that no line of the file imports or defines (they are
local variables, functions of core's prelude, fields and keywords). `Self::x` is kept with the name of
the type that the `impl` is for."""
import sys, os
sys.path.insert(0, os.path.dirname(os.path.abspath(__file__)))
import rust2v
from rust2v import lex, tree, parse_matcher, transcribe, CLOSE

CORE_MACROS = {'write', 'unreachable', 'panic', 'assert', 'debug_assert', 'assert_eq', 'debug_assert_eq', 'matches', 'todo', 'concat', 'stringify'}
KEYWORDS = {'self', 'mut', 'ref', 'as', 'dyn', 'impl', 'for', 'in', 'if', 'else', 'match', 'let', 'const', 'static', 'fn', 'type', 'use', 'where', 'unsafe',
            'pub', 'return', 'loop', 'while', 'break', 'continue', 'struct', 'enum', 'union', 'trait', 'true', 'false', 'move', 'extern', 'mod', 'crate', '_', 'async'}
macros = {}

def vis(toks, i):
    if i < len(toks) and toks[i].s == 'pub':
        i += 1
        if toks[i].s == '(': i = tree(toks, i)
    return i

def match_rule(ms, toks):
    """as do_match, and `$v:vis`"""
    if ms and ms[0][0] == 'var' and ms[0][2] == 'vis':
        j = vis(toks, 0); r = rust2v.do_match(ms[1:], toks, j)
        if r: r[0][ms[0][1]] = toks[:j]
        return r
    return rust2v.do_match(ms, toks, 0)

def expand(name, body):
    for m, out in macros[name]:
        r = match_rule(m, body)
        if r and r[1] == len(body): return transcribe(out, r[0])
    raise SyntaxError('no rule of %s! fits' % name)

def cond(toks):
    """the inside of `cfg( .. )`"""
    def go(i):
        n = toks[i].s
        if n in ('all', 'any', 'not') and toks[i+1].s == '(':
            j = tree(toks, i+1); k, l = i+2, []
            while k < j-1:
                c, k = go(k); l.append(c)
                if toks[k].s == ',': k += 1
            return ((n,) + tuple(l), j)
        if i+1 < len(toks) and toks[i+1].s == '=': return (('on', n, toks[i+2].s.strip('"')), i+3)
        return (('on', n, ''), i+1)
    c, j = go(0); assert j == len(toks), toks
    return c

def attrs(toks, i):
    """conditions of the attributes at i, index after them"""
    cs = []
    while i < len(toks) and toks[i].s == '#' and toks[i].k == 'op':
        j = i+1
        if toks[j].s == '!': j += 1
        k = tree(toks, j)
        if toks[j+1].s == 'cfg': cs.append(cond(toks[j+3:k-2]))
        i = k
    return cs, i

def use_tree(toks, pre):
    """(path, name or None for a glob)"""
    if toks[0].s == '::': toks = toks[1:]
    if toks[0].s == '{':
        out, i, s = [], 1, 1
        depth = 0
        inner = toks[1:-1]; parts, cur = [], []
        for t in inner:
            if t.s == '{': depth += 1
            if t.s == '}': depth -= 1
            if t.s == ',' and not depth: parts.append(cur); cur = []
            else: cur.append(t)
        if cur: parts.append(cur)
        for p in parts: out += use_tree(p, pre)
        return out
    if toks[0].s == '*': return [(pre, None)]
    n = toks[0].s
    if len(toks) == 1: return [(pre, pre[-1])] if n == 'self' else [(pre + [n], n)]
    if toks[1].s == 'as': return [(pre + [n], toks[2].s)]
    assert toks[1].s == '::', toks
    return use_tree(toks[2:], pre + [n])

def generics_of(toks, i):
    """names bound by the `< .. >` at i"""
    out, depth, k, fresh = [], 0, i, True
    while True:
        s = toks[k].s
        if s == '<': depth += 1
        elif s == '>':
            depth -= 1
            if depth == 0: return out
        elif s in CLOSE: k = tree(toks, k) - 1
        elif depth == 1:
            if fresh and toks[k].k == 'id' and s != 'const': out.append(s); fresh = False
            elif s == ',': fresh = True
        k += 1

def bound_names(toks):
    out = set()
    for i, t in enumerate(toks):
        if t.k != 'id': continue
        nx = toks[i+1] if i+1 < len(toks) else None
        if t.s == 'impl' and nx and nx.s == '<': out |= set(generics_of(toks, i+1))
        if t.s in ('fn', 'struct', 'enum', 'trait', 'union', 'type') and i+2 < len(toks) and toks[i+2].s == '<': out |= set(generics_of(toks, i+2))
        if t.s == 'use':
            k = i
            while toks[k].s != ';': k += 1
            out.add(toks[k-1].s)
        if t.s == 'as' and 'use' in [x.s for x in toks[max(0, i-8):i]] and nx: out.add(nx.s)
        if t.s in ('const', 'static') and nx and nx.k == 'id' and nx.s not in ('fn', 'unsafe'): out.add(nx.s)
    return out

def paths(toks, cs, bound, out):
    """every path in toks, with its conditions"""
    i = 0
    while i < len(toks):
        t = toks[i]
        if t.s == '#' and t.k == 'op':
            c, j = attrs(toks, i)
            if not c: i = j; continue
            k = j
            while k < len(toks) and toks[k].s not in (',', ';'):
                if toks[k].s in CLOSE and toks[k].k == 'op':
                    b = toks[k].s == '{'; k = tree(toks, k)
                    if b and not (k < len(toks) and toks[k].s == '=>'): break
                else: k += 1
            if ('on', 'test', '') not in c: paths(toks[j:k], cs + c, bound, out)
            i = k; continue
        if t.k == 'op' and t.s in CLOSE:
            j = tree(toks, i); paths(toks[i+1:j-1], cs, bound, out); i = j; continue
        if t.k == 'id' and t.s not in KEYWORDS or t.s == 'crate':
            prev = toks[i-1].s if i else None
            p, j = [t.s], i+1
            while j+1 < len(toks) and toks[j].s == '::' and toks[j+1].k == 'id': p.append(toks[j+1].s); j += 2
            lead = prev == '::' and t.s in ('oct', 'core', 'alloc', 'std')
            nx = toks[j].s if j < len(toks) else None
            skip = prev == '.' or (prev == '::' and not lead) or (prev in ('type', 'const', 'fn', 'struct', 'enum', 'trait', 'static', 'as') and len(p) == 1 and prev != 'as')
            if len(p) == 1 and nx in (':', '=') : skip = True
            if p[0] in bound: skip = True
            if nx == '!' and p[0] in CORE_MACROS: skip = True
            if not skip: out.append((cs, p, t.line))
            i = j; continue
        i += 1

def items(toks, cs, mod):
    i = 0
    while i < len(toks):
        if toks[i].s == ';': i += 1; continue
        c, i = attrs(toks, i)
        if i >= len(toks): return
        start = i; j = vis(toks, i); pub = j > i; i = j
        n, line = toks[i].s, toks[i].line
        dead = ('on', 'test', '') in c; cc = cs + c
        if n == 'macro_rules':
            j = tree(toks, i+3); body = toks[i+4:j-1]; rules, k = [], 0
            while k < len(body):
                a = tree(body, k); z = tree(body, a+1)
                rules.append((parse_matcher(body[k+1:a-1]), body[a+2:z-1])); k = z
                if k < len(body) and body[k].s == ';': k += 1
            macros[toks[i+2].s] = rules; mod['entries'].append(('def', line, cc, toks[i+2].s)); i = j; continue
        if i+1 < len(toks) and toks[i+1].s == '!' and n in macros:
            j = tree(toks, i+2)
            if not dead:
                ex = [rust2v.Tok(t.k, t.s, line) for t in expand(n, toks[i+3:j-1])]
                mod['uses'].append((cc, [n], line, None)); items(ex, cc, mod)
            i = j; continue
        if n == 'extern' and toks[i+1].s == 'crate':
            x = toks[i+2].s; i += 3
            if toks[i].s == 'as': i += 2
            else: mod['externs'].append((line, cc, x))
            continue
        if n == 'use':
            j = i
            while toks[j].s != ';': j += 1
            if not dead:
                for p, a in use_tree(toks[i+1:j], []): mod['entries'].append(('glob', line, cc, p) if a is None else ('use', line, cc, p, a, pub))
            i = j+1; continue
        if n == 'mod':
            j = i+3; sub = None
            if toks[i+2].s == '{':
                j = tree(toks, i+2); sub = fresh(mod['file'], mod['path'] + [toks[i+1].s])
                items(toks[i+3:j-1], [], sub)
            if not dead: mod['entries'].append(('mod', line, cc, toks[i+1].s)); mod['mods'].append((toks[i+1].s, sub))
            i = j; continue
        j = i
        while True:
            if toks[j].s == ';': j += 1; break
            if toks[j].k == 'op' and toks[j].s in CLOSE:
                b = toks[j].s == '{'; j = tree(toks, j)
                if b: break
            else: j += 1
        if dead: i = j; continue
        it = toks[i:j]; k = 0
        while it[k].s in ('unsafe', 'const') and it[k+1].s in ('fn', 'impl', 'trait', 'unsafe'): k += 1
        kind = it[k].s; me = None
        if kind in ('struct', 'enum', 'trait', 'fn', 'const', 'type', 'union', 'static'):
            mod['entries'].append(('def', line, cc, it[k+1].s)); me = it[k+1].s
        elif kind == 'impl':
            hd, z = [], k
            while it[z].s not in ('{', 'where'): z += 1
            hd = it[k+1:z]; d = 0; f = None
            for q, t in enumerate(hd):
                if t.s == '<': d += 1
                elif t.s == '>': d -= 1
                elif t.s == 'for' and d == 0: f = q
            rest = hd[f+1:] if f is not None else hd
            if f is None and rest and rest[0].s == '<':
                d = 0
                for q, t in enumerate(rest):
                    d += (t.s == '<') - (t.s == '>')
                    if d == 0: rest = rest[q+1:]; break
            q = 0
            while q+1 < len(rest) and rest[q].k == 'op': q += 1
            while q+2 < len(rest) and rest[q+1].s == '::': q += 2
            me = rest[q].s if rest and rest[q].k == 'id' else None
        else: raise SyntaxError('%s:%d: %s' % (mod['file'], line, kind))
        body = it[k:]
        if kind == 'enum':
            z = max(q for q, t in enumerate(body) if t.s == '{'  and tree(body, q) == len(body)); v = body[z+1:-1]; q = 0
            hdr, fields = body[:z], []
            while q < len(v):
                vc, q = attrs(v, q); vn = v[q].s; vl = v[q].line; q += 1
                mod['variants'].append((vl, cc + vc, me, vn))
                if q < len(v) and v[q].s in CLOSE:
                    e = tree(v, q); fields.append((vc, v[q+1:e-1])); q = e
                while q < len(v) and v[q].s != ',': q += 1
                q += 1
            bound = bound_names(body); out = []
            paths(hdr, cc, bound, out)
            for vc, f in fields: paths(f, cc + vc, bound, out)
        else:
            bound = bound_names(body); out = []; paths(body, cc, bound, out)
        mod['uses'] += [(a, p, l, me) for a, p, l in out]
        i = j

def fresh(file, path): return {'file': file, 'path': path, 'entries': [], 'uses': [], 'mods': [], 'externs': [], 'variants': []}

def load(root, path, file):
    mod = fresh(file, path)
    items(lex(open(os.path.join(root, file)).read()), [], mod)
    out = [mod]
    d = '' if file == 'src/lib.rs' else file[:-len('/mod.rs')] if file.endswith('/mod.rs') else file[:-3]
    base = 'src' if file == 'src/lib.rs' else d
    for m, sub in mod['mods']:
        if sub: out.append(sub); continue
        f = '%s/%s/mod.rs' % (base, m)
        if not os.path.exists(os.path.join(root, f)): f = '%s/%s.rs' % (base, m)
        out += load(root, path + [m], f)
    return out

def s(x): return '"%s"' % x
def l(f, xs): return '[' + '; '.join(f(x) for x in xs) + ']'
def co(c): return 'On %s %s' % (s(c[1]), s(c[2])) if c[0] == 'on' else '%s %s' % ({'all': 'All', 'any': 'Any', 'not': 'Not'}[c[0]], '(%s)' % co(c[1]) if c[0] == 'not' else l(co, c[1:]))
def cs(c): return l(co, dict.fromkeys(c))

def deps(root):
    """`[features]`, and which of the dependencies are optional"""
    sec, feats, out = None, {}, []
    for line in open(os.path.join(root, 'Cargo.toml')):
        line = line.strip()
        if line.startswith('['): sec = line.strip('[]')
        elif '=' in line and sec == 'features':
            k, v = line.split('=', 1); feats[k.strip()] = [x.strip().strip('"') for x in v.strip().strip('[]').split(',') if x.strip()]
        elif '=' in line and sec == 'dependencies':
            k, v = line.split('=', 1); k = k.strip()
            out.append((k, 'optional = true' in v, [f for f in feats if k in feats[f] or 'dep:' + k in feats[f]]))
    return out

def main():
    root, outdir = sys.argv[-2:]
    mods = load(root, [], 'src/lib.rs')
    out = ['(* Generated by tools/cfg2v.py from oct/src and oct/Cargo.toml: what each file imports, defines and names, under which `cfg`. Do not edit. *)',
           'From Coq Require Import String List.\nFrom Verif Require Import SpecBuild.\nImport ListNotations.\nLocal Open Scope string_scope.\nLocal Open Scope list_scope.\n']
    names = []
    for m in mods:
        known = {e[3] for e in m['entries'] if e[0] in ('def', 'mod')} | {e[4] for e in m['entries'] if e[0] == 'use'}
        es = []
        for e in m['entries']:
            if e[0] == 'def': es.append('Item %d %s %s' % (e[1], cs(e[2]), s(e[3])))
            if e[0] == 'mod': es.append('Child %d %s %s' % (e[1], cs(e[2]), s(e[3])))
            if e[0] == 'glob': es.append('Glob %d %s %s' % (e[1], cs(e[2]), l(s, e[3])))
            if e[0] == 'use': es.append('Use %d %s %s %s %s' % (e[1], cs(e[2]), l(s, e[3]), s(e[4]), 'true' if e[5] else 'false'))
        seen, us = set(), []
        for c, p, line, me in m['uses']:
            if len(p) == 1 and (p[0][0].islower() or p[0][0] == '_') and p[0] not in known: continue
            if len(p) == 1 and p[0] == 'Self': continue
            who = me if p[0] == 'Self' else None
            p = p[:2] if p[0] not in ('crate', 'oct', 'core', 'alloc', 'std') else p
            key = (tuple(dict.fromkeys(c)), tuple(p), who)
            if key in seen: continue
            seen.add(key)
            if p[0] == 'Self' and who is None: continue
            us.append('Own %d %s %s %s' % (line, cs(c), s(who), s(p[1])) if p[0] == 'Self' else 'Mention %d %s %s' % (line, cs(c), l(s, p)))
        vs = ['Variant %d %s %s %s' % (a, cs(c), s(t), s(v)) for a, c, t, v in m['variants']]
        n = 'file_' + '_'.join(m['path']) if m['path'] else 'file_lib'
        j = ';\n    '
        out.append('(* oct/%s *)\nDefinition %s : file := File %s\n  [%s]\n  [%s]\n  [%s].\n' % (m['file'], n, l(s, m['path']), j.join(es), j.join(vs), j.join(us)))
        names.append(n)
    ext = ['(%s, [])' % s('core')]
    for m in mods: ext += ['(%s, %s)' % (s(x), cs(c)) for _, c, x in m['externs']]
    for d, opt, fs in deps(root):
        # an optional one is there if any of the features that list it is on; one that none lists, only by its own name
        fs = ['On "feature" ' + s(f) for f in fs or [d]]
        ext.append('(%s, %s)' % (s(d.replace('-', '_')), '[]' if not opt else '[%s]' % fs[0] if len(fs) == 1 else '[Any [%s]]' % '; '.join(fs)))
    out.append('(* the crates that can be named: `extern crate` of oct/src/lib.rs, and the dependencies of oct/Cargo.toml *)\nDefinition src_crate : krate := Krate\n  [%s]\n  [%s].' % ('; '.join(ext), '; '.join(names)))
    t = '\n'.join(out) + '\n'
    p = os.path.join(outdir, 'SourceBuild.v')
    if sys.argv[1] == '--check':
        if open(p).read() != t: print('differs: SourceBuild.v'); sys.exit(1)
    else: open(p, 'w').write(t)
if __name__ == '__main__': main()
