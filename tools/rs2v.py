#!/usr/bin/env python3
"""Translate the transform kernels of /repo from Rust text to Gallina.

Reads the kernel source files as text (nothing is built or run) and writes
rocq/theories/Model/Gen*.v.  The accepted language is the subset of Rust the
kernels are written in: pointer arithmetic, usize arithmetic, calls, `if`/`match`
dispatch, `while p < end` loops over core::arch intrinsics or unaligned scalar
accesses, and asm! loops.  Anything else is an error, never silently skipped.
"""
import re, sys, os

REPO = '/repo/src'
CORE = REPO + '/core'

# ---------------------------------------------------------------- lexer
TOK = re.compile(r'''
  (?P<ws>\s+)
| (?P<lc>//[^\n]*)
| (?P<bc>/\*.*?\*/)
| (?P<str>b?"(?:\\.|[^"\\])*")
| (?P<life>'[a-z_]+(?!'))
| (?P<chr>'(?:\\.|[^'\\])')
| (?P<num>0x[0-9a-fA-F_]+(?:[ui](?:8|16|32|64|size))?|0b[01_]+(?:[ui](?:8|16|32|64|size))?|[0-9][0-9_]*(?:[ui](?:8|16|32|64|size))?)
| (?P<id>[A-Za-z_][A-Za-z0-9_]*)
| (?P<op>::|->|=>|==|!=|<=|>=|&&|\|\||<<=|>>=|<<|>>|\+=|-=|\*=|/=|\|=|&=|\^=|\.\.=|\.\.|[-+*/%&|^!<>=(){}\[\],;:.?#@$])
''', re.X | re.S)

class T:
    __slots__ = ('k', 'v', 'ln')
    def __init__(s, k, v, ln): s.k, s.v, s.ln = k, v, ln
    def __repr__(s): return f'{s.v}@{s.ln}'

def lex(src):
    out, i, ln = [], 0, 1
    while i < len(src):
        m = TOK.match(src, i)
        if not m: raise SyntaxError(f'lex line {ln}: {src[i:i+40]!r}')
        k, v = m.lastgroup, m.group()
        if k == 'id' and v in ('end', 'fun', 'forall', 'exists', 'fix', 'cofix', 'with', 'then', 'using', 'at'): v += '_'  # Coq keywords
        if k not in ('ws', 'lc', 'bc'): out.append(T(k, v, ln))
        ln += v.count('\n'); i = m.end()
    out.append(T('eof', '', ln))
    return out

# ---------------------------------------------------------------- parser
class Err(Exception): pass

class P:
    def __init__(s, toks): s.t, s.i = toks, 0
    def pk(s, n=0): return s.t[min(s.i+n, len(s.t)-1)]
    def at(s, v): return s.pk().v == v and s.pk().k in ('op', 'id')
    def nx(s): t = s.t[s.i]; s.i += 1; return t
    def ex(s, v):
        t = s.nx()
        if t.v != v: raise Err(f'line {t.ln}: expected {v!r}, got {t.v!r}')
        return t
    def ac(s, v):
        if s.at(v): s.i += 1; return True
        return False
    def skip_bal(s):
        """skip a balanced group starting at the current opener"""
        o = s.nx().v; c = {'(':')','[':']','{':'}'}[o]; d = 1
        while d:
            t = s.nx()
            if t.k == 'eof': raise Err('unbalanced')
            if t.k == 'op':
                if t.v in '([{': d += 1
                elif t.v in ')]}': d -= 1
    # ---- attributes
    def attrs(s):
        out = []
        while s.at('#'):
            s.nx(); s.ac('!')
            a = s.i; s.skip_bal()
            out.append(''.join(t.v if t.k != 'str' else t.v for t in s.t[a+1:s.i-1]))
        return out
    # ---- types (returned as text)
    def ty(s):
        a = s.i
        if s.ac('&'):
            if s.pk().k == 'life': s.nx()
            s.ac('mut'); s.ty()
        elif s.ac('*'):
            if not (s.ac('const') or s.ac('mut')): raise Err('ptr type')
            s.ty()
        elif s.at('('): s.skip_bal()
        elif s.at('['): s.skip_bal()
        elif s.at('impl') or s.at('dyn'):
            s.nx(); s.ty()
        else:
            s.nx()
            while True:
                if s.at('::'): s.nx(); 
                if s.at('<'):
                    d = 0
                    while True:
                        t = s.nx()
                        if t.v == '<': d += 1
                        elif t.v == '>': d -= 1
                        elif t.v == '>>': d -= 2
                        if d <= 0: break
                elif s.pk().k == 'id' and s.t[s.i-1].v == '::': s.nx()
                elif s.at('::'): continue
                else: break
        return ' '.join(t.v for t in s.t[a:s.i])
    # ---- expressions
    BIN = [['||'], ['&&'], ['==','!=','<','>','<=','>='], ['|'], ['^'], ['&'], ['<<','>>'], ['+','-'], ['*','/','%']]
    def expr(s, nostruct=False):
        e = s.binary(0, nostruct)
        if s.at('..') or s.at('..='):
            op = s.nx().v
            if s.pk().v in (')', ']', '{', ';', ','): return ('range', e, None, op)
            return ('range', e, s.binary(0, nostruct), op)
        return e
    def binary(s, lvl, ns):
        if lvl == len(s.BIN): return s.cast(ns)
        l = s.binary(lvl+1, ns)
        while s.pk().k == 'op' and s.pk().v in s.BIN[lvl]:
            op = s.nx().v; r = s.binary(lvl+1, ns); l = ('bin', op, l, r)
        return l
    def cast(s, ns):
        e = s.unary(ns)
        while s.at('as'):
            s.nx(); e = ('as', e, s.ty())
        return e
    def unary(s, ns):
        if s.pk().k == 'op' and s.pk().v in ('!', '-', '*'):
            op = s.nx().v; return ('un', op, s.unary(ns))
        if s.at('&'):
            s.nx(); m = s.ac('mut'); return ('ref', s.unary(ns))
        if s.at('&&'):
            s.nx(); return ('ref', ('ref', s.unary(ns)))
        return s.postfix(ns)
    def args(s):
        s.ex('('); out = []
        while not s.at(')'):
            out.append(s.expr())
            if not s.ac(','): break
        s.ex(')'); return out
    def postfix(s, ns):
        e = s.atom(ns)
        while True:
            if s.at('.'):
                s.nx(); t = s.nx()
                if t.k == 'num': e = ('field', e, t.v); continue
                if s.at('::'):
                    s.nx(); s.ex('<'); s.ty(); s.ex('>')
                if s.at('('): e = ('meth', e, t.v, s.args(), t.ln)
                else: e = ('field', e, t.v)
            elif s.at('('): e = ('call', e, s.args())
            elif s.at('['):
                s.nx(); i = s.expr(); s.ex(']'); e = ('idx', e, i)
            elif s.at('?'): s.nx(); e = ('try', e)
            else: return e
    def atom(s, ns):
        t = s.pk()
        if t.k == 'num':
            s.nx(); v = re.sub(r'(?:[ui](?:8|16|32|64|size))$', '', t.v) if not t.v.startswith('0x') else re.sub(r'[ui](?:8|16|32|64|size)$','',t.v)
            return ('num', int(v.replace('_',''), 0) if not re.match(r'^0[0-9]', v) else int(v))
        if t.k in ('str', 'chr'): s.nx(); return ('str', t.v)
        if t.v == '(':
            s.nx(); es = []
            tup = False
            while not s.at(')'):
                es.append(s.expr())
                if s.ac(','): tup = True
                else: break
            s.ex(')')
            if len(es) == 1 and not tup: return es[0]
            return ('tuple', es)
        if t.v == '[':
            s.nx(); es = []
            while not s.at(']'):
                es.append(s.expr())
                if s.ac(';'):
                    n = s.expr(); s.ex(']'); return ('repeat', es[0], n)
                if not s.ac(','): break
            s.ex(']'); return ('array', es)
        if t.v == 'if': return s.if_()
        if t.v == 'match': return s.match_()
        if t.v == 'unsafe' and s.pk(1).v == '{': s.nx(); return ('block', s.block())
        if t.v == '{': return ('block', s.block())
        if t.v == 'return':
            s.nx(); return ('return', None if s.pk().v in (';','}') else s.expr())
        if t.v in ('|','||'): raise Err(f'line {t.ln}: closure')
        if t.k == 'id':
            path = [s.nx().v]; gen = None
            while s.at('::'):
                s.nx()
                if s.at('<'):
                    s.nx(); gen = [s.genarg()]
                    while s.ac(','): gen.append(s.genarg())
                    s.ex('>')
                else: path.append(s.nx().v)
            if s.at('!') and s.pk(1).v in ('(', '[', '{') :
                s.nx(); a = s.i; s.skip_bal()
                return ('macro', '::'.join(path), s.t[a+1:s.i-1], t.ln)
            if s.at('{') and not ns and path[-1][:1].isupper():
                s.nx(); fs = []
                while not s.at('}'):
                    n = s.nx().v
                    fs.append((n, s.expr() if s.ac(':') else ('path', [n], None)))
                    if not s.ac(','): break
                s.ex('}'); return ('struct', path, fs)
            return ('path', path, gen)
        raise Err(f'line {t.ln}: unexpected {t.v!r}')
    def genarg(s):
        if s.pk().k == 'num': return s.atom(True)
        if s.at('{'):
            s.nx(); e = s.expr(); s.ex('}'); return e
        return ('ty', s.ty())
    def if_(s):
        s.ex('if')
        if s.at('let'): raise Err(f'line {s.pk().ln}: if let')
        c = s.expr(True); a = s.block(); b = None
        if s.ac('else'):
            b = [('expr', s.if_(), True, 0)] if s.at('if') else s.block()
        return ('if', c, a, b)
    def pat(s):
        a = s.i; d = 0
        while True:
            t = s.pk()
            if d == 0 and t.v in ('=>', 'if', '=', ':', 'in') : break
            if t.v in '([{' and t.k == 'op': d += 1
            if t.v in ')]}' and t.k == 'op': d -= 1
            s.nx()
        return [t.v for t in s.t[a:s.i]]
    def match_(s):
        s.ex('match'); e = s.expr(True); s.ex('{'); arms = []
        while not s.at('}'):
            s.attrs(); p = s.pat()
            s.ex('=>')
            if s.at('{'):
                b = ('block', s.block()); s.ac(',')
            else:
                b = s.expr()
                if s.at('='):
                    ln = s.nx().ln; b = ('block', [('assign', '=', b, s.expr(), ln)])
                s.ac(',')
            arms.append((p, b))
        s.ex('}'); return ('match', e, arms)
    # ---- statements
    def block(s):
        s.ex('{'); out = []
        while not s.at('}'):
            out += s.stmt()
        s.ex('}'); return out
    def stmt(s):
        at = s.attrs(); t = s.pk(); ln = t.ln
        def w(x): return [('cfg', at, [x], ln)] if any(a.startswith('cfg(') for a in at) else [x]
        if t.v == ';': s.nx(); return []
        if t.v == 'use':
            while not s.ac(';'): s.nx()
            return []
        if t.v == 'const':
            s.nx(); n = s.nx().v; s.ex(':'); ty = s.ty(); s.ex('='); e = s.expr(); s.ex(';')
            return w(('const', n, ty, e, ln))
        if t.v == 'let':
            s.nx(); p = s.pat(); ty = None
            if s.ac(':'): ty = s.ty()
            e = None
            if s.ac('='): e = s.expr()
            s.ex(';'); return w(('let', [x for x in p if x != 'mut'], ty, e, ln))
        if t.v == 'while':
            s.nx(); c = s.expr(True); return w(('while', c, s.block(), ln))
        if t.v == 'for':
            s.nx(); p = s.pat(); s.ex('in'); c = s.expr(True); return w(('for', p, c, s.block(), ln))
        if t.v == 'loop': raise Err(f'line {ln}: loop')
        # a block in statement position ends the statement
        if t.v in ('{', 'if', 'match') or t.v == 'unsafe' and s.pk(1).v == '{':
            i = s.i; e = s.atom(False)
            if s.pk().v not in ('.', '?', '=='): return w(('expr', e, not s.ac(';'), ln))
            s.i = i
        e = s.expr()
        if s.pk().k == 'op' and s.pk().v in ('=', '+=', '-=', '*=', '/=', '|=', '&=', '<<=', '>>='):
            op = s.nx().v; r = s.expr(); s.ex(';')
            return w(('assign', op, e, r, ln))
        semi = s.ac(';')
        if not semi and not s.at('}') and e[0] not in ('if', 'match', 'block', 'macro'):
            raise Err(f'line {s.pk().ln}: expected ;')
        return w(('expr', e, not semi, ln))

class Fn: pass

def parse_file(path, inline=None):
    """inline: a dictionary to fill with the `mod x { .. }` blocks, each parsed like a file"""
    src = open(path).read()
    p = P(lex(src)); fns, consts, uses, mods = [], {}, [], []
    def items(end):
        nonlocal fns, consts, uses, mods, inline
        while not (p.at(end) if end else p.pk().k == 'eof'):
            at = p.attrs()
            if p.at('pub'):
                p.nx()
                if p.at('('): p.skip_bal()
            t = p.pk()
            if t.v == 'use':
                p.nx(); a = p.i
                while not p.ac(';'): p.nx()
                uses.append(p.t[a:p.i-1])
            elif t.v in ('mod',):
                p.nx(); n = p.nx().v
                if p.at('{'):
                    if inline is None or any('test' in a for a in at) or n in ('tests', 'test_prelude'): p.skip_bal()
                    else:
                        save = fns, consts, uses, mods, inline; sub = {}
                        fns, consts, uses, mods, inline = [], {}, [], [], sub
                        p.nx(); items('}'); save[4][n] = (fns, consts, uses, mods, sub)
                        fns, consts, uses, mods, inline = save
                else: p.ex(';'); mods.append(n)
            elif t.v in ('const', 'static') and p.pk(1).v not in ('unsafe', 'fn'):
                p.nx(); n = p.nx().v; p.ex(':'); ty = p.ty(); p.ex('=')
                a = p.i
                try:
                    e = p.expr(); p.ex(';'); consts[n] = (ty, e)
                except Err:
                    p.i = a
                    while not p.ac(';'):
                        if p.pk().v in ('(', '[', '{'): p.skip_bal()
                        else: p.nx()
            elif t.v in ('unsafe', 'fn', 'const', 'extern') and not (t.v == 'extern' and p.pk(1).v == 'crate'):
                while not p.at('fn'):
                    p.nx()
                f = Fn(); f.attrs = at; f.line = p.pk().ln; f.ok = True
                p.ex('fn'); f.name = p.nx().v; f.generics = []
                if p.at('<'):
                    p.nx(); d = 1; g = []
                    while d:
                        x = p.nx()
                        if x.v == '<': d += 1
                        elif x.v == '>': d -= 1
                        elif x.v == '>>': d -= 2
                        if d > 0: g.append(x.v)
                    f.generics = g
                p.ex('('); f.params = []
                while not p.at(')'):
                    p.attrs(); p.ac('mut')
                    if p.at('&') or p.at('self'):
                        f.ok = False
                        while not (p.at(',') or p.at(')')): p.nx()
                    else:
                        n = p.nx().v; p.ex(':'); f.params.append((n, p.ty()))
                    if not p.ac(','): break
                p.ex(')'); f.ret = None
                if p.ac('->'): f.ret = p.ty()
                while not p.at('{') and not p.at(';'): p.nx()
                if p.at(';'): p.nx(); continue
                a = p.i; p.skip_bal(); f.end = p.t[p.i-1].ln
                f.toks = p.t[a:p.i] + [T('eof', '', f.end)]
                fns.append(f)
            else:
                # struct / enum / impl / macro ...: skip to the end of the item
                while True:
                    if p.pk().k == 'eof': break
                    if p.at(';'): p.nx(); break
                    if p.at('{'): p.skip_bal(); break
                    if p.at('('): p.skip_bal(); continue
                    p.nx()
        if end: p.ex(end)
    items(None)
    return fns, consts, uses, mods

# With --big: the code a big-endian machine compiles (no x86 paths, cfg(target_endian = "big")).
BIG = '--big' in sys.argv

# ---------------------------------------------------------------- program database
ABBR = {'standard':'std','with_recorrelate':'rec','with_split_colour':'sc','with_split_colour_and_recorr':'scr',
        'with_split_alphas':'sa','with_split_alphas_and_colour':'sac','with_split_alphas_and_recorr':'sar',
        'with_split_alphas_colour_and_recorr':'sacr','untransform':'u'}
class Module:
    def __init__(s, path, file, parsed=None):
        s.path, s.file = path, file
        s.fns_l, s.consts, s.use_toks, s.mods = parsed or parse_file(file)
        s.fns = {}
        for f in s.fns_l:
            if any(a.startswith('cfg(') and 'test' in a for a in f.attrs): continue
            if any(a.startswith('cfg(') and f'target_endian="{"little" if BIG else "big"}"' in a for a in f.attrs): continue
            f.mod = s
            f.suf = ''; f.dup = s.fns.get(f.name)
            if f.dup:
                if f.dup.dup: raise Err(f'{f.name}: three versions')
                for g in (f, f.dup):
                    if 'cfg(target_arch="x86_64")' in g.attrs: g.suf = '_x64'
                    elif 'cfg(target_arch="x86")' in g.attrs: g.suf = '_i686'
                    else: raise Err(f'{f.name}: versions')
                f.dup.dup = f
                if f.suf == f.dup.suf: raise Err(f'{f.name}: same version twice')
            s.fns[f.name] = f
        s.rel = os.path.relpath(file, '/repo')
        s.uses, s.globs = {}, []
        for u in s.use_toks: s.use(u)
    def use(s, toks):
        i = 0
        def tree(prefix):
            nonlocal i
            while True:
                t = toks[i]
                if t.v == '{':
                    i += 1
                    while toks[i].v != '}':
                        tree(list(prefix))
                        if toks[i].v == ',': i += 1
                    i += 1; return
                if t.v == '*': i += 1; s.globs.append(prefix); return
                prefix = prefix + [t.v]; i += 1
                if i < len(toks) and toks[i].v == '::': i += 1; continue
                name = prefix[-1]
                if i < len(toks) and toks[i].v == 'as': name = toks[i+1].v; i += 2
                if name == 'self': prefix = prefix[:-1]; name = prefix[-1]
                s.uses[name] = prefix; return
        if toks and toks[0].v == '::': toks = toks[1:]
        tree([])
    def coq(s):
        out = []; tdone = False
        for x in s.path:
            if x.startswith('dxt_lossless_transform_'): out.append(x[len('dxt_lossless_transform_'):]); continue
            if x == 'transform' and not tdone: tdone = True; continue
            out.append('t' if x == 'transform' else ABBR.get(x, x))
        return '_'.join(out)

class Prog:
    def __init__(s): s.m = {}
    def load(s, crate, rel):
        """module at src/<rel>; rel like transform/standard/mod.rs"""
        d = f'{CORE}/{crate}/src/{rel}'
        parts = rel[:-3].split('/')
        if parts[-1] in ('mod', 'lib'): parts = parts[:-1]
        path = (crate.replace('-', '_'),) + tuple(parts)
        if path not in s.m: s.m[path] = Module(path, d)
        return s.m[path]
    def load_inline(s, crate, rel):
        """the same for a file whose functions are in inline modules"""
        file = f'{CORE}/{crate}/src/{rel}'; inline = {}; parse_file(file, inline)
        def go(path, mods):
            for n, (fns, consts, uses, ms, sub) in mods.items():
                s.m[path + (n,)] = Module(path + (n,), file, (fns, consts, uses, ms)); go(path + (n,), sub)
        go((crate.replace('-', '_'),) + tuple(rel[:-3].split('/')[:-1]), inline)
    def abs(s, mod, segs):
        """absolute path of a path written in module mod"""
        segs = list(segs); cur = None
        if segs[0] == 'crate': return [mod.path[0]] + segs[1:]
        if segs[0] == 'self': return list(mod.path) + segs[1:]
        if segs[0] == 'super':
            b = list(mod.path)
            while segs and segs[0] == 'super': b = b[:-1]; segs = segs[1:]
            return b + segs
        return None
    def resolve(s, mod, segs, depth=0):
        """find the Fn a path in module mod denotes"""
        if depth > 8: return None
        a = s.abs(mod, segs)
        if a is None:
            if len(segs) == 1 and segs[0] in mod.fns: return mod.fns[segs[0]]
            if segs[0] in mod.uses and mod.uses[segs[0]] != list(segs):
                full = mod.uses[segs[0]] + list(segs[1:])
                r = s.resolve_abs(mod, full, depth+1)
                if r: return r
            r = s.resolve_abs(mod, list(mod.path) + list(segs), depth+1, True)
            if r: return r
            for g in mod.globs:
                r = s.resolve_abs(mod, list(g) + list(segs), depth+1)
                if r: return r
            return s.resolve_abs(mod, list(segs), depth+1, True)
        return s.resolve_abs(mod, a, depth+1, True)
    def resolve_abs(s, mod, full, depth, isabs=False):
        if not isabs:
            a = s.abs(mod, full)
            if a is None:
                # relative to the current module or an extern crate
                r = s.resolve_abs(mod, list(mod.path) + full, depth+1, True)
                if r: return r
                a = full
            full = a
        key = tuple(full[:-1])
        m = s.m.get(key)
        if m is None:
            # an import inside a parent module
            for i in range(len(full)-1, 0, -1):
                mm = s.m.get(tuple(full[:i]))
                if mm is not None and i < len(full)-1:
                    if full[i] in mm.uses:
                        return s.resolve_abs(mm, mm.uses[full[i]] + full[i+1:], depth+1)
                    break
            return None
        n = full[-1]
        if n in m.fns: return m.fns[n]
        if n in m.uses: return s.resolve_abs(m, m.uses[n], depth+1)
        for g in m.globs:
            r = s.resolve_abs(m, list(g) + [n], depth+1)
            if r: return r
        return None

def fn_coq(f): return ('be_' if BIG else '') + f.mod.coq() + '_' + f.name + f.suf

# ---------------------------------------------------------------- helpers
SIZES = {'u8':1,'i8':1,'u16':2,'i16':2,'u32':4,'i32':4,'f32':4,'u64':8,'i64':8,'f64':8,'usize':8,
         'Color565':2,'__m128i':16,'__m128':16,'__m256i':32,'__m256':32,'__m512i':64,'_':None}
def ptr_elem(ty):
    m = re.match(r'^\* (?:const|mut) (\S+)$', ty)
    if not m: return None
    t = m.group(1)
    if t not in SIZES: raise Err(f'pointer to {t}')
    return SIZES[t] or 1
def is_ptr(ty): return ty.startswith('* ')
def coq_bytes(bs): return '[' + '; '.join('x%02x' % b for b in bs) + ']'
def z(n): return f'({n})' if n < 0 else str(n)
def enc(v, n): return [(v >> (8*i)) & 255 for i in range(n)]

RX_YCC = re.compile(r'^(decorrelate|recorrelate)_ycocg_r_var([123])(?:_(sse2|avx2|avx512bw))?$')
ISA = {None:'Scalar','sse2':'Sse2','avx2':'Avx2','avx512bw':'Avx512bw'}
VAR = {'Variant1':'V1','Variant2':'V2','Variant3':'V3','None':'VNone'}

def cfg_cond(txt):
    """text of cfg(...) -> Coq boolean over c, or None when it only mentions tests"""
    p = P(lex(txt))
    def go():
        t = p.nx()
        if t.v in ('any', 'all', 'not'):
            p.ex('('); xs = []
            while not p.at(')'):
                xs.append(go())
                if not p.ac(','): break
            p.ex(')')
            if BIG:
                if t.v == 'not' and xs[0] in ('true', 'false'): return 'false' if xs[0] == 'true' else 'true'
                if t.v in ('any', 'all'):
                    absorb = 'true' if t.v == 'any' else 'false'
                    if absorb in xs: return absorb
                    xs = [x for x in xs if x not in ('true', 'false')]
                    if not xs: return 'false' if t.v == 'any' else 'true'
            if t.v == 'not': return f'negb ({xs[0]})'
            return '(' + (' || ' if t.v == 'any' else ' && ').join(xs) + ')'
        p.ex('='); v = p.nx().v.strip('"')
        if t.v == 'target_arch':
            if BIG: return 'false'
            return {'x86_64':'is_x64 c', 'x86':'is_i686 c'}[v]
        if t.v == 'feature' and v == 'no-runtime-cpu-detection': return 'c_static c'
        if t.v == 'target_feature': return 'c_' + v + ' c'
        if t.v == 'target_endian': return 'true' if v == ('big' if BIG else 'little') else 'false'
        raise Err(f'cfg {t.v}={v}')
    p.ex('cfg'); p.ex('('); r = go(); p.ex(')')
    r = r.replace('(is_x64 c || is_i686 c)', 'is_x86 c').replace('(is_i686 c || is_x64 c)', 'is_x86 c')
    return r

# ---------------------------------------------------------------- function translation
class Val:
    """k: 'ptr' (s=coq term, n=elem size) | 'int' (s=coq term, n=const value or None)
       | 'vec' (s=register name, n=width, bytes=constant) | 'variant' | 'unit'"""
    def __init__(self, k, **kw):
        self.k = k; self.__dict__.update(kw)

FEATS = ['sse2', 'ssse3', 'avx2', 'avx512f', 'avx512bw', 'avx512vl', 'avx512vbmi']
def intrin_feats(f):
    """CPU features an intrinsic needs"""
    if f in ('_mm_loadu_epi8', '_mm_storeu_epi8'): return {'avx512bw', 'avx512vl'}
    if re.match(r'^_mm512_permutex2var_epi8$', f): return {'avx512vbmi'}
    if re.match(r'^_mm512_permutex2var_epi16$', f): return {'avx512bw'}
    if f == '_mm_shuffle_epi8': return {'ssse3'}
    if f.startswith('_mm512_'): return {'avx512f'}
    if f.startswith('_mm256_'): return {'avx2'}
    return {'sse2'}
class FnTr:
    def __init__(s, prog, f, deps):
        s.prog, s.f, s.mod, s.deps = prog, f, f.mod, deps
        s.name = fn_coq(f); s.loops = []; s.tmp = 0; s.feat = set()
    def fresh(s, b='t'): s.tmp += 1; return f'{b}{s.tmp}'
    def err(s, m): raise Err(f'{s.mod.rel}:{s.name}: {m}')

    # -------- constants
    def cint(s, e, env):
        """compile-time integer value or None"""
        k = e[0]
        if k == 'num': return e[1]
        if k == 'un' and e[1] == '-':
            v = s.cint(e[2], env); return None if v is None else -v
        if k == 'bin':
            a, b = s.cint(e[2], env), s.cint(e[3], env)
            if a is None or b is None: return None
            return {'+':lambda:a+b,'-':lambda:a-b,'*':lambda:a*b,'/':lambda:a//b,'%':lambda:a%b,'<<':lambda:a<<b,
                    '>>':lambda:a>>b,'|':lambda:a|b,'&':lambda:a&b}[e[1]]()
        if k == 'path' and len(e[1]) == 1:
            n = e[1][0]
            if n in env and env[n].k == 'int': return env[n].n
            if n not in env and n in s.mod.consts: return s.cint(s.mod.consts[n][1], {})
        if k == 'as' and e[2] in SIZES and SIZES[e[2]]: return s.cint(e[1], env)
        if k == 'call' and e[1][0] == 'path' and e[1][1][-1] == 'size_of': return SIZES[e[1][2][0][1]]
        return None
    def const_bytes(s, e, env):
        """bytes of a constant array named by / written as e"""
        if e[0] == 'path' and len(e[1]) == 1:
            n = e[1][0]
            if n in env and env[n].k == 'arr': return env[n].bytes
            if n in s.mod.consts:
                ty, ex = s.mod.consts[n]
                return s.arr_bytes(ty, ex, {})
        return None
    def arr_bytes(s, ty, ex, env):
        m = re.match(r'^\[ (\S+) ;', ty)
        if not m: return None
        n = SIZES[m.group(1)]
        if ex[0] == 'array':
            out = []
            for x in ex[1]:
                v = s.cint(x, env)
                if v is None: s.err('non-constant array')
                out += enc(v, n)
            return out
        return None
    def vconst(s, e, env):
        """bytes of a constant vector expression, or None"""
        if e[0] == 'as': return s.vconst(e[1], env)
        if e[0] == 'path' and len(e[1]) == 1 and e[1][0] in env and env[e[1][0]].k == 'vec':
            return env[e[1][0]].bytes
        if e[0] == 'block' and len(e[1]) == 1 and e[1][0][0] == 'expr': return s.vconst(e[1][0][1], env)
        if e[0] != 'call' or e[1][0] != 'path': return None
        fn = e[1][1][-1]; a = e[2]
        if fn.startswith('_mm'): s.feat |= intrin_feats(fn)
        m = re.match(r'^_mm(\d*)_(set|setr)_epi(8|16|32|64|64x)$', fn)
        if m:
            w = int(m.group(3).replace('x', '')) // 8
            vs = [s.cint(x, env) for x in a]
            if None in vs: return None
            tot = {'':16,'256':32,'512':64}[m.group(1)]
            if len(vs)*w != tot: s.err(f'{fn} arity')
            if m.group(2) == 'set': vs = vs[::-1]
            return [b for v in vs for b in enc(v, w)]
        m = re.match(r'^_mm(\d*)_set1_epi(8|16|32|64|64x)$', fn)
        if m:
            w = int(m.group(2).replace('x', '')) // 8; v = s.cint(a[0], env)
            if v is None: return None
            return enc(v, w) * ({'':16,'256':32,'512':64}[m.group(1)] // w)
        m = re.match(r'^_mm(\d*)_setzero_si\d+$', fn)
        if m: return [0] * {'':16,'256':32,'512':64}[m.group(1)]
        m = re.match(r'^_mm512_cvtepi8_epi(32|64)$', fn)
        if m:
            b = s.vconst(a[0], env)
            if b is None: return None
            w = int(m.group(1)) // 8; n = 64 // w
            return [c for x in b[:n] for c in enc(x - 256 if x >= 128 else x, w)]
        m = re.match(r'^_mm(\d*)_(loadu_si\d+|load_si\d+|loadu_epi8|loadl_epi64)$', fn)
        if m:
            x = a[0]
            while x[0] == 'as': x = x[1]
            if x[0] == 'meth' and x[2] == 'as_ptr':
                b = s.const_bytes(x[1], env)
                if b is None: return None
                n = 8 if fn.endswith('loadl_epi64') else {'':16,'256':32,'512':64}[m.group(1)]
                if len(b) < n: s.err(f'constant table too short for {fn}')
                return b[:n] + ([0]*8 if fn.endswith('loadl_epi64') else [])
        return None

    # -------- function-level expressions; emits binds into out
    def iexpr(s, e, env, out):
        """usize expression -> Val int"""
        v = s.cint(e, env)
        if v is not None: return Val('int', s=z(v), n=v)
        k = e[0]
        if k == 'path':
            n = e[1][0]
            if n in env and env[n].k == 'int': return env[n]
            s.err(f'unknown int {e}')
        if k == 'bin':
            op = e[1]
            if op == '&' and e[3][0] == 'un' and e[3][1] == '!':
                a = s.iexpr(e[2], env, out); b = s.iexpr(e[3][2], env, out)
                return Val('int', s=f'Z.ldiff {par(a.s)} {par(b.s)}', n=None)
            a = s.iexpr(e[2], env, out); b = s.iexpr(e[3], env, out)
            if op == '-':
                t = s.fresh('d'); out.append(f'do {t} <- usub {par(a.s)} {par(b.s)} ;;')
                return Val('int', s=t, n=None)
            if op in '+*': return Val('int', s=f'{par(a.s)} {op} {par(b.s)}', n=None)
            if op == '/': return Val('int', s=f'{par(a.s)} / {par(b.s)}', n=None)
            if op == '%': return Val('int', s=f'{par(a.s)} mod {par(b.s)}', n=None)
            s.err(f'int op {op}')
        if k == 'meth' and e[2] == 'saturating_sub':
            a = s.iexpr(e[1], env, out); b = s.iexpr(e[3][0], env, out)
            return Val('int', s=f'Z.max 0 ({a.s} - {par(b.s)})', n=None)
        if k == 'as' and e[2] == 'usize':
            x = s.fexpr(e[1], env, out)
            if x.k == 'ptr': return Val('addr', s=x.s, n=None)
            return x
        s.err(f'int expr {e}')
    def ptrdiff(s, e, env, out):
        """(p as usize - q as usize)"""
        def addr(x):
            if x[0] == 'as' and x[2] == 'usize':
                try: v = s.fexpr(x[1], env, out)
                except Err: return None
                return v.s if v.k == 'ptr' else None
        if e[0] == 'bin' and e[1] == '-':
            a, b = addr(e[2]), addr(e[3])
            if a and b:
                t = s.fresh('d'); out.append(f'do {t} <- ptr_diff {par(a)} {par(b)} ;;')
                return Val('int', s=t, n=None)
        return None
    def fexpr(s, e, env, out):
        k = e[0]
        if k == 'path' and len(e[1]) == 1 and e[1][0] in env: return env[e[1][0]]
        if k == 'as':
            if is_ptr(e[2]):
                v = s.fexpr(e[1], env, out)
                if v.k != 'ptr': s.err(f'cast to pointer of {v.k}')
                return Val('ptr', s=v.s, n=ptr_elem(e[2]))
        if k == 'meth' and e[2] in ('add', 'sub') :
            p = s.fexpr(e[1], env, out)
            if p.k == 'ptr':
                i = s.iexpr2(e[3][0], env, out)
                off = scale(i, p.n)
                if e[2] == 'sub': off = f'- ({off})'
                t = s.fresh('p')
                out.append(f'do {t} <- ptr_add m {par(p.s)} ({off}) ;;')
                return Val('ptr', s=t, n=p.n)
        if k == 'meth' and e[2] in ('cast', 'cast_mut', 'cast_const'):
            return s.fexpr(e[1], env, out)
        if k == 'match': return s.match_val(e, env, out)
        if k == 'path' and e[1][0] == 'YCoCgVariant': return Val('variant', s=VAR[e[1][1]])
        b = s.vconst(e, env)
        if b is not None: return Val('vec', s=None, n=len(b), bytes=b)
        return s.iexpr2(e, env, out)
    def iexpr2(s, e, env, out):
        d = s.ptrdiff(e, env, out)
        if d: return d
        if e[0] == 'bin' and s.cint(e, env) is None and e[1] in '*/+%':
            d1 = s.ptrdiff(e[2], env, out)
            if d1:
                b = s.iexpr(e[3], env, out)
                return Val('int', s=f'{d1.s} {"mod" if e[1]=="%" else e[1]} {par(b.s)}', n=None)
        return s.iexpr(e, env, out)
    def bexpr(s, e, env, out):
        """boolean condition -> Coq bool"""
        k = e[0]
        if k == 'bin' and e[1] in ('&&', '||'):
            return f'({s.bexpr(e[2],env,out)} {e[1]} {s.bexpr(e[3],env,out)})'
        if k == 'un' and e[1] == '!': return f'negb ({s.bexpr(e[2],env,out)})'
        if k == 'meth' and e[2] == 'is_multiple_of':
            a = s.iexpr2(e[1], env, out); b = s.iexpr2(e[3][0], env, out)
            return f'({par(a.s)} mod {par(b.s)} =? 0)'
        if k == 'bin' and e[1] in ('!=', '==') and e[3] == ('path', ['YCoCgVariant', 'None'], None):
            b = f'(vnum {par(s.fexpr(e[2], env, out).s)} =? 0)'
            return b if e[1] == '==' else f'negb {b}'
        if k == 'bin' and e[1] == '<' and e[2][0] == 'path' and len(e[2][1]) == 1 and e[2][1][0] in env and env[e[2][1][0]].k == 'ptr':
            b = s.fexpr(e[3], env, out); t = s.fresh('b')
            out.append(f'do {t} <- ptr_ltb {env[e[2][1][0]].s} {par(b.s)} ;;')
            return t
        if k == 'bin' and e[1] in ('==', '<', '>', '<=', '>=', '!='):
            a = s.iexpr2(e[2], env, out); b = s.iexpr2(e[3], env, out)
            op = e[1]
            if op == '==': return f'({a.s} =? {b.s})'
            if op == '!=': return f'negb ({a.s} =? {b.s})'
            if op == '<': return f'({a.s} <? {b.s})'
            if op == '>': return f'({b.s} <? {a.s})'
            if op == '<=': return f'({a.s} <=? {b.s})'
            return f'({b.s} <=? {a.s})'
        if k == 'macro' and e[1] == 'cfg':
            return cfg_cond('cfg(' + ''.join(t.v for t in e[2]) + ')')
        if k == 'call' and e[1][0] == 'path' and re.match(r'^has_\w+$', e[1][1][-1]) and not e[2]:
            return e[1][1][-1] + ' c'
        s.err(f'bool expr {e}')

    # -------- statements at function level, in continuation style
    def body(s):
        f = s.f
        p = P(f.toks); stmts = p.block()
        env, params = {}, []
        s.variant_param = None
        if f.generics:
            g = ' '.join(f.generics)
            if g != 'const VARIANT : u8': s.err(f'generics {g}')
            params.append('(VARIANT : Z)'); s.variant_param = 'VARIANT'
            env['VARIANT'] = Val('int', s='VARIANT', n=None)
        for n, ty in f.params:
            if is_ptr(ty): env[n] = Val('ptr', s=n, n=ptr_elem(ty)); params.append(f'({n} : ptr)')
            elif ty == 'usize': env[n] = Val('int', s=n, n=None); params.append(f'({n} : Z)')
            elif ty.split()[-1] == 'YCoCgVariant': env[n] = Val('variant', s=n); params.append(f'({n} : variant)')
            else: s.err(f'parameter type {ty}')
        if f.ret not in (None,): s.err(f'returns {f.ret}')
        for a in f.attrs:
            m = re.match(r'^target_feature\(enable="(.*)"\)$', a)
            if m: s.feat |= set(m.group(1).split(','))
        lines = s.seq(stmts, env, None)
        if s.feat:
            fs = [x for x in FEATS if x in s.feat]
            if len(fs) != len(s.feat): s.err(f'features {s.feat}')
            lines = [f'do _ <- cpu_has ({" && ".join("c_" + x + " c" for x in fs)}) "{" ".join(fs)}" ;;'] + lines
        txt = ''
        rel = s.mod.rel
        for nm, ln, args, code in s.loops:
            if nm == '#':
                txt += f'(** Constants of the loop at {rel}:{ln} *)\n' + code + '\n\n'; continue
            if BIG: code = '  be_body\n' + code
            txt += f'(** Loop at {rel}:{ln}. *)\nDefinition {nm}{args} : list instr :=\n{code}.\n\n'
        txt += f'(** {rel}:{f.line}-{f.end}, fn {f.name} *)\n'
        txt += f'Definition {s.name} (c : cfg) {" ".join(params)} (m : mem) : res mem :=\n'
        txt += '\n'.join('  ' + l for l in lines) + '.\n\n'
        return txt

    def seq(s, stmts, env, k):
        """lines computing `res mem`; k: env -> lines for what follows, None = end of function"""
        if not stmts:
            return k(env) if k else ['Ok m']
        st, rest = stmts[0], stmts[1:]
        cont = lambda env2: s.seq(rest, env2, k)
        t = st[0]
        if t == 'cfg':
            conds = [cfg_cond(a) for a in st[1] if a.startswith('cfg(')]
            c = ' && '.join(conds)
            inner = st[2]
            known = dict(env.get('#known') or {})
            if c in known: c = known[c]
            if c == 'true': return s.seq(flat(inner) + rest, env, k)
            if c == 'false': return s.seq(rest, env, k)
            ea, eb = dict(env), dict(env)
            neg = c[6:-1] if c.startswith('negb (') else f'negb ({c})'
            ea['#known'] = {**known, c: 'true', neg: 'false'}; eb['#known'] = {**known, c: 'false', neg: 'true'}
            a = s.seq(flat(inner) + rest, ea, k); b = s.seq(rest, eb, k)
            return [f'if {c} then'] + ind(a) + ['else'] + ind(b)
        if t == 'const':
            _, n, ty, e, ln = st; env = dict(env)
            b = s.arr_bytes(ty, e, env) if ty.startswith('[') else None
            if b is not None: env[n] = Val('arr', bytes=b)
            else:
                v = s.cint(e, env)
                if v is None: s.err(f'const {n}')
                env[n] = Val('int', s=z(v), n=v)
            return cont(env)
        if t == 'let' and not straight(st):
            _, pat, ty, e, ln = st; env = dict(env); out = []
            if pat[0] == '(' and e[0] == 'call':
                names = [x for x in pat if x not in '(),']
                g = s.prog.resolve(s.mod, e[1][1]); blk = P(g.toks).block()
                if g.params or len(blk) != 1 or blk[0][1][0] != 'tuple': s.err(f'line {ln}: tuple helper')
                for n, x in zip(names, blk[0][1][1]):
                    bs = s.vconst(x, {})
                    if bs is None: s.err(f'line {ln}: tuple helper component')
                    env[n] = Val('vec', s=n, n=len(bs), bytes=bs)
                return cont(env)
            if len(pat) != 1: s.err(f'line {ln}: let pattern {pat}')
            n = pat[0]
            if e is None: env[n] = Val('undef'); return cont(env)
            if e[0] == 'match': v = s.match_val(e, env, out)
            elif e[0] == 'array' and ty: v = Val('arr', bytes=s.arr_bytes(ty, e, env))
            else: v = s.fexpr(e, env, out)
            if v.k == 'vec': env[n] = Val('vec', s=n, n=v.n, bytes=v.bytes); return out + cont(env)
            if v.k == 'arr': env[n] = v; return out + cont(env)
            if v.k == 'int' and v.n is not None: env[n] = v; return out + cont(env)
            if v.k == 'ptr' and ty and is_ptr(ty): v = Val('ptr', s=v.s, n=ptr_elem(ty))
            # name the value after the Rust variable
            if out and out[-1].startswith('do ' + v.s + ' <- '):
                out[-1] = f'do {n} <- ' + out[-1][len('do ' + v.s + ' <- '):]
                v = Val(v.k, s=n, n=getattr(v, 'n', None))
            elif v.s != n:
                out.append(f'let {n} := {v.s} in'); v = Val(v.k, s=n, n=getattr(v, 'n', None))
            env[n] = v
            return out + cont(env)
        if t == 'assign':
            _, op, l, r, ln = st; env = dict(env); out = []
            if l[0] != 'path' or len(l[1]) != 1: s.err(f'line {ln}: assignment target')
            n = l[1][0]
            if op != '=': r = ('bin', op[:-1], l, r)
            v = s.fexpr(r, env, out)
            if out and out[-1].startswith('do ' + v.s + ' <- '):
                out[-1] = f'do {n} <- ' + out[-1][len('do ' + v.s + ' <- '):]
            elif v.s != n: out.append(f'let {n} := {v.s} in')
            env[n] = Val(v.k, s=n, n=None if v.k == 'int' else getattr(v, 'n', None))
            return out + cont(env)
        if t == 'while':
            return s.while_(st, env) + cont(s.after)
        if t == 'for':
            return s.times(st, env) + cont(s.after)
        if straight(st):
            # straight-line loads and stores outside a loop: everything up to the end of the block
            B = Body(s, env, st[-1]); B.stmts(stmts); code = B.code()
            nm = f'{s.name}_once{len([q for q in s.loops if q[0] != "#"])+1}'
            r = s.emit_loop(None, nm, st[-1], B, code, None, '1', env, B.mutp, {p: p for p in B.usedp})
            return r + s.seq([], s.after, k)
        if t == 'expr':
            e, ln = st[1], st[3]
            return s.stexpr(e, ln, rest, env, k)
        s.err(f'statement {t}')

    def stexpr(s, e, ln, rest, env, k):
        cont = lambda env2: s.seq(rest, env2, k)
        if e[0] == 'block': return s.seq(flat([('expr', e, False, ln)]) + rest, env, k)
        if e[0] == 'return':
            if e[1] is not None: s.err('return value')
            return ['Ok m']
        if e[0] == 'macro':
            nm = e[1]
            if nm in ('debug_assert', 'assert', 'debug_assert_eq'):
                p = P(e[2] + [T('eof', '', ln)]); c = p.expr(); out = []
                if nm == 'debug_assert_eq':
                    p.ex(','); c = ('bin', '==', c, p.expr())
                b = s.bexpr(c, env, out)
                txt = re.sub(r'\s+', ' ', ' '.join(t.v for t in e[2]))[:60].replace('"', "'")
                d = 'c_debug c' if nm != 'assert' else 'true'
                return out + [f'do _ <- debug_assert ({d}) {par(b)} "{txt}" ;;'] + cont(env)
            if nm.split('::')[-1] == 'asm':
                r = s.asm(e, ln, env); return r + cont(s.after)
            s.err(f'line {ln}: macro {nm}')
        if e[0] == 'if':
            _, c, a, b = e; out = []
            cond = s.bexpr(c, env, out)
            has_ret = contains_return(a) or (b and contains_return(b))
            if has_ret or not rest and k is None:
                la = s.seq(a + ([] if ends_ret(a) else rest), dict(env), k)
                lb = s.seq((b or []) + ([] if b and ends_ret(b) else rest), dict(env), k)
                return out + [f'if {cond} then'] + ind(la) + ['else'] + ind(lb)
            # join: return the outer variables the branches assign
            outer = sorted(n for n in assigned(a) | assigned(b or []) if n in env)
            tup = ', '.join(outer + ['m']); tp = f'({tup})' if outer else 'm'
            def fin(env2): return [f'Ok {tp}']
            la = s.seq(a, dict(env), fin); lb = s.seq(b or [], dict(env), fin)
            env = dict(env)
            for n in outer: env[n] = Val(env[n].k, s=n, n=env[n].n if env[n].k == 'ptr' else None)
            return out + [f"do {tp} <- (", f'  if {cond} then'] + ind(ind(la)) + ['  else'] + ind(ind(lb)) + [') ;;'] + cont(env)
        if e[0] == 'match':
            _, sc, arms = e
            v = s.fexpr(sc, env, [])
            if v.k == 'variant':
                out = [f'match {v.s} with']
                for p, b in arms:
                    pt = '_' if p == ['_'] else ' | '.join(VAR[x] for x in ''.join(p).replace('YCoCgVariant::', '').split('|'))
                    bl = b[1] if b[0] == 'block' else [('expr', b, True, ln)]
                    out += [f'| {pt} =>'] + ind(s.seq(bl + rest, dict(env), k))
                return out + ['end']
            if v.k == 'int':
                out = []
                for p, b in arms:
                    bl = b[1] if b[0] == 'block' else [('expr', b, True, ln)]
                    l = s.seq(bl + rest, dict(env), k)
                    if p == ['_']: out += ind(l); return out
                    out += [f'if {v.s} =? {int(p[0])} then'] + ind(l) + ['else']
            s.err(f'line {ln}: match statement')
        if e[0] == 'call':
            return s.call(e, ln, env) + (cont(env) if (rest or k) else s.tail_fix())
        if e[0] == 'tuple' and e[1] == []: return cont(env)
        s.err(f'line {ln}: expression statement {e[0]}')
    def tail_fix(s): return ['Ok m']

    def call(s, e, ln, env):
        path, gen = e[1][1], e[1][2]

        if path[-1] == 'unreachable_unchecked': return ['do m <- Ub "unreachable_unchecked" ;;']
        f = s.prog.resolve(s.mod, path)
        if f is None: s.err(f'line {ln}: unresolved call {"::".join(path)}')
        s.deps.append(f)
        if f.dup and s.f.suf:
            if f.suf != s.f.suf: s.deps[-1] = f = f.dup
            nodup = True
        else: nodup = False
        if f.dup and not nodup: s.deps.append(f.dup)
        out = []; args = []
        if f.generics:
            g = gen[0]
            if g[0] == 'ty':
                args.append(env[g[1]].s)
            else: args.append(z(s.cint(g, env)))
        if len(e[2]) != len(f.params): s.err(f'line {ln}: arity of {f.name}')
        for a, (pn, ty) in zip(e[2], f.params):
            if is_ptr(ty): v = s.fexpr(a, env, out)
            elif ty == 'usize': v = s.iexpr2(a, env, out)
            else: v = s.fexpr(a, env, out)
            args.append(par(v.s))
        if f.dup and not nodup:
            a, b = (f, f.dup) if f.suf == '_x64' else (f.dup, f)
            out.append(f'do m <- (if is_x64 c then {fn_coq(a)} c {" ".join(args)} m else {fn_coq(b)} c {" ".join(args)} m) ;;')
        else: out.append(f'do m <- {fn_coq(f)} c {" ".join(args)} m ;;')
        return out

    def match_val(s, e, env, out):
        """let x = match VARIANT { 1 => YCoCgVariant::.., _ => unreachable } / match mode { .. => 1, .. }"""
        _, sc, arms = e
        v = s.fexpr(sc, env, out)
        vals = []
        for p, b in arms:
            while b[0] == 'block' and len(b[1]) == 1: b = b[1][0][1]
            if b[0] == 'call' and b[1][1][-1] == 'unreachable_unchecked': vals.append((p, None))
            else: vals.append((p, s.fexpr(b, env, out)))
        t = s.fresh('v')
        if v.k == 'int':
            txt = ''; dflt = None
            for p, x in vals:
                r = 'Ub "unreachable_unchecked"' if x is None else f'Ok {x.s}'
                if p == ['_']: txt += r; dflt = True
                else: txt += f'if {v.s} =? {p[0]} then {r} else '
            if not dflt: s.err('match without default')
            out.append(f'do {t} <- {par(txt)} ;;')
        else:
            txt = ''
            for p, x in vals:
                r = 'Ub "unreachable_unchecked"' if x is None else f'Ok {x.s}'
                pt = '_' if p == ['_'] else VAR[''.join(p).replace('YCoCgVariant::', '')]
                txt += f' | {pt} => {r}'
            out.append(f'do {t} <- match {v.s} with{txt} end ;;')
        k = next(x for _, x in vals if x is not None)
        return Val(k.k, s=t, n=None)

    # -------- loops
    def times(s, st, env):
        """for _ in 0..n { .. }  and  while n > 0 { n -= 1; .. }"""
        out = []
        if st[0] == 'for':
            _, pat, it, blk, ln = st; var = None
            if pat != ['_'] or it[0] != 'range' or it[3] != '..' or s.cint(it[1], env) != 0: s.err(f'line {ln}: for loop')
            n = s.iexpr2(it[2], env, out)
        else:
            _, c, blk, ln = st; var = c[2][1][0]; n = env[var]
            if n.k != 'int' or blk[0] != ('assign', '-=', c[2], ('num', 1), blk[0][-1]): s.err(f'line {ln}: counting loop')
            blk = blk[1:]
            if var in assigned(blk): s.err(f'line {ln}: counter changes twice')
        B = Body(s, env, ln); B.stmts(blk); code = B.code()
        nm = f'{s.name}_loop{len([q for q in s.loops if q[0] != "#"])+1}'
        out += s.emit_loop(None, nm, ln, B, code, None, n.s, env, B.mutp, {p: p for p in B.usedp})
        if var: s.after[var] = Val('int', s='0', n=0)
        return out

    def while_(s, st, env):
        _, c, blk, ln = st
        if c[0] == 'bin' and c[1] == '>' and c[2][0] == 'path' and c[3] == ('num', 0): return s.times(st, env)
        if c[0] == 'bin' and c[1] == '&&': return s.while2(st, env)
        if c[0] != 'bin' or c[1] != '<': s.err(f'line {ln}: loop condition')
        l = c[2]
        while l[0] == 'as': l = l[1]
        if l[0] != 'path': s.err(f'line {ln}: loop condition lhs')
        x = l[1][0]
        out = []
        e = s.fexpr(c[3], env, out)
        B = Body(s, env, ln)
        B.stmts(blk)
        if out:
            # the bound is computed each time: do it once, if the body does not change what it depends on
            b = c[3]
            if not (b[0] == 'meth' and b[2] in ('add', 'sub') and b[1][0] == 'path' and b[1][1][0] not in B.mutp and s.cint(b[3][0], env) is not None):
                s.err(f'line {ln}: loop bound is computed each time')
        code = B.code()
        nm = f'{s.name}_loop{len([q for q in s.loops if q[0] != "#"])+1}'
        return out + s.emit_loop('while_lt', nm, ln, B, code, x, e.s, env, B.mutp, {p: p for p in B.usedp})

    def while2(s, st, env):
        """while x.add(k) < a && x < b"""
        _, c, blk, ln = st; l, r = c[2], c[3]
        if not (l[0] == 'bin' and l[1] == '<' and l[2][0] == 'meth' and l[2][2] == 'add' and l[2][1] == r[2] and r[2][0] == 'path'
                and r[0] == 'bin' and r[1] == '<' and l[3][0] == 'path' and r[3][0] == 'path'): s.err(f'line {ln}: loop condition')
        x = r[2][1][0]; k = s.cint(l[2][3][0], env) * env[x].n
        B = Body(s, env, ln); B.stmts(blk); code = B.code()
        if {l[3][1][0], r[3][1][0]} & B.mutp: s.err(f'line {ln}: loop bound moves')
        nm = f'{s.name}_loop{len([q for q in s.loops if q[0] != "#"])+1}'
        return s.emit_loop('while_lt2', nm, ln, B, code, x, f'{k} {env[l[3][1][0]].s} {env[r[3][1][0]].s}', env, B.mutp, {p: p for p in B.usedp})

    def emit_loop(s, fn, nm, ln, B, code, x, e, env, mutp, names):
        """names: body pointer name -> rust variable"""
        args = ' (x64 : bool)' if B.arch else ''
        s.loops.append((nm, ln, args, code))
        cs = '; '.join(f'("{r}", {nm}_{r})' for r in B.usedc)
        consts = [f'Definition {nm}_{r} : list byte := {coq_bytes(bs)}.' for r, bs in B.usedc.items()]
        if consts: s.loops.insert(len(s.loops)-1, ('#', ln, None, '\n'.join(consts)))
        ps = '; '.join(f'("{b}", {env[v].s})' for b, v in names.items())
        vt = B.vt or s.variant_param or '0'
        bd = f'({nm} (is_x64 c))' if B.arch else nm
        if fn is None: out = [f'do s <- times (c_junk c) {vt} {bd} {par(e)} (St [{cs}] [{ps}] m) ;;', 'let m := mm s in']
        elif fn == 'while_lt2': out = [f'do s <- {fn} (c_junk c) {vt} {bd} "{x}" {e} (St [{cs}] [{ps}] m) ;;', 'let m := mm s in']
        else: out = [f'do s <- {fn} (c_junk c) {vt} {bd} "{x}" {par(e)} (St [{cs}] [{ps}] m) ;;', 'let m := mm s in']
        env2 = dict(env)
        for b, v in names.items():
            if b in mutp:
                out.append(f'do {v} <- getp s "{b}" ;;')
                env2[v] = Val('ptr', s=v, n=env[v].n)
        s.after = env2
        return out

    def asm(s, e, ln, env):
        toks = e[2]; i = 0; lines = []; ops = {}; opts = ''
        p = P(toks + [T('eof', '', ln)])
        while p.pk().k != 'eof':
            if p.pk().k == 'str':
                lines.append((p.pk().v[1:-1], p.pk().ln)); p.nx()
            elif p.at('options'):
                p.nx(); a = p.i; p.skip_bal(); opts = ' '.join(t.v for t in p.t[a+1:p.i-1])
            else:
                name = None
                if p.pk(1).v == '=': name = p.nx().v; p.nx()
                d = p.nx().v
                p.ex('('); cls = p.nx().v; p.ex(')')
                ex = p.expr()
                if p.ac('=>'): s.err('asm => operand')
                if name is None: s.err(f'line {ln}: unnamed asm operand')
                ops[name] = (d, cls, ex)
            if not p.ac(','): break
        B = Body(s, env, ln)
        alias = {}
        for n, (d, cls, ex) in ops.items():
            if cls == 'reg':
                if d == 'in' and ex[0] == 'ref' and ex[1][0] == 'array': continue
                if ex[0] != 'path': s.err(f'line {ln}: asm operand {ex}')
                alias[n] = ex[1][0]
        state = 'pre'; label = None; x = end = None
        for txt, l in lines:
            txt = re.sub(r'\b[xyz]mmword ptr ', '', txt.split('//')[0].strip()).replace('{end}', '{end_}')
            if not txt or txt.startswith('.p2align') or txt.startswith('#'): continue
            if re.match(r'^\d+:$', txt):
                if state != 'pre': s.err(f'line {l}: second label')
                if B.ins: s.err(f'line {l}: code before the loop label')
                state = 'body'; label = txt[:-1]; continue
            m = re.match(r'^(\w+)\s*(.*)$', txt); mn, ar = m.group(1), [a.strip() for a in m.group(2).split(',')]
            if state == 'body' and mn == 'cmp':
                x, end = ar[0].strip('{}'), ar[1].strip('{}'); state = 'cmp'; continue
            if state == 'cmp':
                if mn != 'jb' or ar[0] != label + 'b': s.err(f'line {l}: expected jb {label}b')
                state = 'done'; continue
            if state == 'pre' and mn == 'vmovdqu' and re.match(r'^\[\{\w+\}\]$', ar[1]) and re.match(r'^\{\w+\}$', ar[0]):
                # a constant table, loaded before the loop into a register the loop only reads
                r, q = ar[0][1:-1], ops[ar[1][2:-2]]
                if q[1] != 'reg' or q[2][0] != 'ref': s.err(f'line {l}: load before the loop')
                suf = re.search(r'([ui]\d+)\]', re.sub(r'\s', '', ''.join(t.v for t in toks)))
                bs = s.arr_bytes(f'[ {suf.group(1)} ;', q[2][1], env)
                if ops[r][1] != 'ymm_reg' or len(bs) != 32: s.err(f'line {l}: width of the load')
                s.feat.add('avx2'); B.usedc[r] = bs; continue
            if state != 'body': s.err(f'line {l}: asm {txt} outside the loop')
            B.asm_ins(mn, ar, ops, l)
        if state != 'done': s.err(f'line {ln}: asm without loop')
        if end in B.usedp: s.err('asm end pointer is moved')
        code = B.code()
        nm = f'{s.name}_loop{len([q for q in s.loops if q[0] != "#"])+1}'
        names = {n: alias[n] for n in B.usedp}
        for n in names:
            if n in B.mutp and ops[n][0] not in ('inout', 'inlateout'): s.err(f'line {ln}: {n} is modified but not inout')
        return s.emit_loop('asm_jb', nm, ln, B, code, x, env[alias[end]].s, env, B.mutp, names)

def scale(i, n):
    if n == 1: return i.s
    if i.n is not None: return z(i.n * n)
    return f'{par(i.s)} * {n}'
def par(x): return x if re.match(r'^[\w.]+$', x) or (x.startswith('(') and match_par(x)) else f'({x})'
def match_par(x):
    d = 0
    for i, ch in enumerate(x):
        d += ch == '('; d -= ch == ')'
        if d == 0: return i == len(x) - 1
    return False
def ind(ls): return ['  ' + l for l in ls]
def flat(stmts):
    out = []
    for st in stmts:
        if st[0] == 'expr' and st[1][0] == 'block': out += flat(st[1][1])
        else: out.append(st)
    return out
def straight(st):
    """a load or store statement"""
    e = st[3] if st[0] == 'let' else st[1] if st[0] == 'expr' else None
    if e is None: return False
    if e[0] == 'call' and e[1][0] == 'path': return e[1][1][-1] in ('read_unaligned', 'write_unaligned')
    return e[0] == 'meth' and e[2] in ('read_unaligned', 'write_unaligned')
def contains_return(x):
    if isinstance(x, (list, tuple)):
        if len(x) >= 1 and x[0] == 'return': return True
        return any(contains_return(y) for y in x)
    return False
def ends_ret(b):
    if not b: return False
    l = b[-1]
    if l[0] == 'expr':
        if l[1][0] == 'return': return True
        if l[1][0] == 'block': return ends_ret(l[1][1])
    return False
def assigned(b):
    out = set()
    def go(x):
        if isinstance(x, tuple) and len(x) and x[0] == 'assign' and x[2][0] == 'path': out.add(x[2][1][0])
        if isinstance(x, tuple) and len(x) and x[0] == 'macro' and x[1].split('::')[-1] == 'asm':
            t = x[2]
            for i in range(len(t)):
                if t[i].v in ('inout', 'inlateout') : out.add(t[i+4].v)
        if isinstance(x, (list, tuple)):
            for y in x: go(y)
    go(b); return out

# ---------------------------------------------------------------- loop bodies
LANES = {'':1, '256':2, '512':4}
class Body:
    """straight-line code of a loop, as instructions"""
    def __init__(s, fn, env, ln):
        s.fn, s.outer, s.ln = fn, env, ln
        s.ins = []; s.env = {}; s.usedp = []; s.mutp = set(); s.usedc = {}; s.arch = False; s.n = 0; s.depth = 0
        s.noret = True; s.ones = set(); s.sar = {}
    def err(s, m): s.fn.err(f'loop {s.ln}: {m}')
    def tmp(s): s.n += 1; return f't{s.n}'
    def emit(s, x): s.ins.append(x)
    def op(s, d, o, *args): s.emit(f'IOp "{d}" ({o}) [{"; ".join(chr(34)+a+chr(34) for a in args)}]')
    def code(s):
        return s.fmt(s.ins)
    def fmt(s, ins):
        segs, cur = [], []
        for i in ins:
            if isinstance(i, tuple):
                if cur: segs.append('[' + ';\n    '.join(cur) + ']'); cur = []
                segs.append(f'(if {i[1]} then\n  {s.fmt(i[2])}\n  else\n  {s.fmt(i[3])})')
            else: cur.append(i)
        if cur or not segs: segs.append('[' + ';\n    '.join(cur) + ']')
        return '  ' + ' ++\n  '.join(segs)
    # pointers
    def useptr(s, n):
        if n not in s.usedp: s.usedp.append(n)
    def ptr(s, e):
        """pointer expression -> (base variable, byte offset, elem size)"""
        k = e[0]
        if k == 'path' and len(e[1]) == 1:
            n = e[1][0]
            if n in s.env:
                v = s.env[n]
                return (v[1], v[2], v[3]) if v[0] == 'p' else None
            if n in s.outer and s.outer[n].k == 'ptr': return (n, 0, s.outer[n].n)
            return None
        if k == 'as' and is_ptr(e[2]):
            p = s.ptr(e[1])
            return (p[0], p[1], ptr_elem(e[2])) if p else None
        if k == 'meth' and e[2] in ('add', 'sub', 'byte_add'):
            p = s.ptr(e[1])
            if not p: return None
            i = s.cint(e[3][0])
            if i is None: s.err(f'pointer offset {e[3][0]}')
            d = i * (1 if e[2] == 'byte_add' else p[2])
            return (p[0], p[1] + (d if e[2] != 'sub' else -d), p[2])
        if k == 'meth' and e[2] in ('cast', 'cast_mut', 'cast_const'): return s.ptr(e[1])
        return None
    def cint(s, e):
        if e[0] == 'path' and len(e[1]) == 1 and e[1][0] in s.env:
            v = s.env[e[1][0]]
            return v[1] if v[0] == 'c' else None
        if e[0] == 'bin':
            a, b = s.cint(e[2]), s.cint(e[3])
            if a is None or b is None: return None
            return s.fn.cint(('bin', e[1], ('num', a), ('num', b)), {})
        if e[0] == 'as' and e[2] in SIZES: return s.cint(e[1])
        return s.fn.cint(e, s.outer)
    # statements
    def stmts(s, blk):
        r = None
        for i, st in enumerate(blk): r = s.stmt(st)
        return r
    def stmt(s, st):
        t = st[0]
        if t == 'cfg':
            c = ' && '.join(cfg_cond(a) for a in st[1] if a.startswith('cfg('))
            if c == 'true': return s.stmts(st[2])
            if c == 'false': return None
            return s.branch(c, st[2], [])
        if t == 'let':
            _, pat, ty, e, ln = st
            if len(pat) == 1:
                if e is None: s.env[pat[0]] = ('u',); return
                p = s.ptr(e)
                if p:
                    if p[0] in s.mutp_all: pass
                    s.env[pat[0]] = ('p',) + p; return
                c = s.cint(e)
                if c is not None: s.env[pat[0]] = ('c', c); return
                r, w = s.val(e, pat[0]); s.bind(pat[0], r, w)
                return
            if pat[0] == '(':
                names = [x for x in pat if x not in '(),']
                rs = s.tuple(e, names)
                for n, (r, w) in zip(names, rs): s.bind(n, r, w)
                return
            s.err(f'line {ln}: pattern {pat}')
        if t == 'const':
            v = s.cint(st[3])
            if v is None: s.err('const in loop')
            s.env[st[1]] = ('c', v); return
        if t == 'assign':
            _, op, l, r, ln = st
            if l[0] == 'un' and l[1] == '*':
                p = s.ptr(l[2])
                if p and op == '=' and p[2] == 1:
                    rg, w = s.val(r); return s.store(p, rg, w, 1)
                s.err(f'line {ln}: deref assignment')
            if l[0] != 'path': s.err(f'line {ln}: assignment')
            n = l[1][0]
            if op != '=': r = ('bin', op[:-1], l, r)
            p = s.ptr(r)
            if p:
                q = s.ptr(l)
                if n in s.env and s.env[n][0] == 'p':
                    s.env[n] = ('p',) + p[:2] + (q[2],); return
                if p[0] != n: s.err(f'line {ln}: pointer {n} becomes {p[0]}')
                if p[1] < 0: pass
                s.useptr(n); s.mutp.add(n)
                s.emit(f'IAdd "{n}" {z(p[1])}')
                # pointers derived earlier keep their value
                for q2, v in list(s.env.items()):
                    if v[0] == 'p' and v[1] == n: s.env[q2] = ('p', n, v[2] - p[1], v[3])
                return
            rg, w = s.val(r, s.local(n)); s.bind(n, rg, w); return
        if t == 'expr':
            return s.ex(st[1], st[3])
        if t == 'while': s.err('nested loop')
        s.err(f'statement {t}')
    mutp_all = ()
    vt = None
    def local(s, n): return (s.pfx + n) if s.depth else n
    pfx = ''
    def bind(s, n, r, w):
        d = s.local(n)
        if r != d: s.op(d, 'OMov', r)
        s.env[n] = ('r', d, w)
    def branch(s, c, a, b):
        if c != 'is_x64 c' : s.err(f'branch on {c}')
        s.arch = True
        save, senv = s.ins, dict(s.env)
        s.ins = []; s.stmts(a); la = s.ins; ea = s.env
        s.ins = []; s.env = dict(senv); s.stmts(b); lb = s.ins; eb = s.env
        s.ins = save; s.env = {n: v for n, v in ea.items() if eb.get(n) == v}
        s.emit(('if', 'x64', la, lb))
    def ex(s, e, ln):
        if e[0] == 'block': return s.stmts(e[1])
        if e[0] == 'if':
            if e[1][0] == 'macro' and e[1][1] == 'cfg':
                c = cfg_cond('cfg(' + ''.join(t.v for t in e[1][2]) + ')')
                if c in ('true', 'false'): return s.stmts(e[2] if c == 'true' else e[3] or [])
                return s.branch(c, e[2], e[3] or [])
            s.err(f'line {ln}: if in loop')
        if e[0] == 'match':
            def asg(b):
                if b[0] == 'block' and len(b[1]) == 1 and b[1][0][0] == 'assign': return b[1][0]
            t = [asg(b) for _, b in e[2]]
            if any(x and (x[1] != '=' or x[2] != t[0][2]) for x in t): s.err(f'line {ln}: match assigns different variables')
            return s.stmt(('assign', '=', t[0][2], ('match', e[1], [(p, x[3] if x else b) for x, (p, b) in zip(t, e[2])]), ln))
        if e[0] == 'meth':
            p = s.ptr(e[1])
            if p:
                m = re.match(r'^write_(u8|u16|u32|u64)_at$', e[2])
                if m:
                    o = s.cint(e[3][0]); r, w = s.val(e[3][1])
                    return s.store((p[0], p[1]+o, 1), r, w, SIZES[m.group(1)])
                if e[2] in ('write_unaligned', 'write'):
                    r, w = s.val(e[3][0])
                    if e[2] == 'write' and p[2] != 1: s.err(f'line {ln}: aligned write')
                    return s.store(p, r, w, p[2])
        if e[0] == 'call':
            f = e[1][1][-1]; a = e[2]
            if f == 'write_unaligned':
                p = s.ptr(a[0]); r, w = s.val(a[1]); return s.store(p, r, w, p[2])
            if f.startswith('_mm'): s.fn.feat |= intrin_feats(f)
            m = re.match(r'^_mm(\d*)_storeu_(si\d+|epi8|pd)$', f)
            if m:
                p = s.ptr(a[0]); r, w = s.val(a[1])
                return s.store(p, r, w, 16*LANES[m.group(1)])
            if f == '_mm_storel_epi64':
                p = s.ptr(a[0]); r, w = s.val(a[1]); t = s.tmp(); s.op(t, 'OBytes 0 8', r); return s.store(p, t, 8, 8)
            if f == '_mm_storeh_pd':
                p = s.ptr(a[0]); r, w = s.val(a[1]); t = s.tmp(); s.op(t, 'OBytes 8 8', r); return s.store(p, t, 8, 8)
            g = s.fn.prog.resolve(s.fn.mod, e[1][1])
            if g: s.inline(g, a); return
        s.err(f'line {ln}: expression {e[0]} {e[1] if e[0]=="call" else e[2] if e[0]=="meth" else ""}')
    def store(s, p, r, w, n):
        if p is None: s.err('store target')
        if w != n: s.err(f'store width {w} != {n}')
        s.useptr(p[0])
        s.emit(f'IStore "{p[0]}" {z(p[1])} {n} "{r}"')
    def inline(s, g, args):
        """inline a helper function (no loops); returns value of tail expression"""
        if g.generics: s.err(f'generic helper {g.name}')
        blk = P(g.toks).block()
        for a in g.attrs:
            q = re.match(r'^target_feature\(enable="(.*)"\)$', a)
            if q: s.fn.feat |= set(q.group(1).split(','))
        vals = []
        for a, (n, ty) in zip(args, g.params):
            if is_ptr(ty):
                p = s.ptr(a)
                if not p: s.err(f'helper pointer argument {a}')
                vals.append(('p', p[0], p[1], ptr_elem(ty)))
            else:
                c = s.cint(a)
                if c is not None: vals.append(('c', c))
                else: r, w = s.val(a); vals.append(('r', r, w))
        senv, sd, sp, smod = s.env, s.depth, s.pfx, s.fn.mod
        s.env = {n: v for (n, ty), v in zip(g.params, vals)}
        s.n += 1; s.depth += 1; s.pfx = f'{g.name}{s.n}_'; s.fn.mod = g.mod
        so = s.outer; s.outer = {}
        s.outer_ptr = so
        res = None
        # pointer names refer to the caller's variables
        s.outer = {k: v for k, v in so.items() if False}
        s._outer_real = so
        for i, st in enumerate(blk):
            if i == len(blk)-1 and st[0] == 'expr' and st[2] and g.ret:
                res = s.val(st[1])
            else: s.stmt(st)
        s.outer = so; s.env, s.depth, s.pfx, s.fn.mod = senv, sd, sp, smod
        return res
    # values
    def tuple(s, e, names):
        if e[0] == 'tuple': return [s.val(x, s.local(n)) for x, n in zip(e[1], names)]
        if e[0] == 'match':
            arms = s.varms(e)
            for b in arms:
                if b[0] != 'tuple' or len(b[1]) != len(names): s.err('match tuple')
            return [s.ycc([b[1][i] for b in arms], s.local(n)) for i, n in enumerate(names)]
        s.err('tuple value')
    def varms(s, e):
        _, sc, arms = e
        pats = [''.join(p).replace('YCoCgVariant::', '') for p, _ in arms]
        if sc == ('path', ['VARIANT'], None):
            if pats != ['1', '2', '3', '_']: s.err('match arms')
        elif sc[0] == 'path' and sc[1][0] in s.outer and s.outer[sc[1][0]].k == 'variant':
            order = ['Variant1', 'Variant2', 'Variant3', 'None']
            if sorted(pats) != sorted(order): s.err('match arms')
            arms = [arms[pats.index(o)] for o in order]
            if s.vt not in (None, f'(vnum {s.outer[sc[1][0]].s})'): s.err('two variants')
            s.vt = f'(vnum {s.outer[sc[1][0]].s})'
        else: s.err(f'match on {sc}')
        out = []
        for p, b in arms:
            while b[0] == 'block' and len(b[1]) == 1: b = b[1][0][1]
            out.append(b)
        if out[3][0] != 'call' or out[3][1][1][-1] != 'unreachable_unchecked': s.err('default arm')
        return out[:3]
    def ycc(s, arms, d):
        """three parallel YCoCg calls -> one OYcc"""
        info = []
        for b in arms:
            if b[0] == 'call' and b[1][0] == 'path':
                m = RX_YCC.match(b[1][1][-1]); arg = b[2]
                if not m or len(arg) != 1: s.err(f'ycc arm {b}')
                info.append((ISA[m.group(3)], m.group(1), 'V' + m.group(2), arg[0]))
            elif b[0] == 'meth':
                m = RX_YCC.match(b[2])
                if not m or b[3]: s.err(f'ycc arm {b}')
                info.append((ISA[None], m.group(1), 'V' + m.group(2), b[1]))
            else: s.err(f'ycc arm {b[0]}')
        if len({(i[0], i[1]) for i in info}) != 1 or any(i[3] != info[0][3] for i in info): s.err('ycc arms differ')
        if info[0][0] != 'Scalar':
            s.fn.feat.add({'Sse2':'sse2','Avx2':'avx2','Avx512bw':'avx512bw'}[info[0][0]])
        r, w = s.val(info[0][3])
        wid = {'Scalar':2,'Sse2':16,'Avx2':32,'Avx512bw':64}[info[0][0]]
        if w != wid: s.err(f'ycc on width {w}')
        d = d or s.tmp()
        s.op(d, f'OYcc {info[0][0]} {"Dec" if info[0][1][0]=="d" else "Rec"} {info[0][2]} {info[1][2]} {info[2][2]}', r)
        return d, w
    def getreg(s, n):
        if n in s.env:
            v = s.env[n]
            if v[0] == 'r': return v[1], v[2]
            s.err(f'{n} is not a register')
        o = s.outer.get(n)
        if o is not None and o.k == 'vec':
            s.usedc[n] = o.bytes; return n, o.n
        return None
    def val(s, e, d=None):
        """value expression -> (register, width); d: preferred destination"""
        if s.depth and d and not d.startswith(s.pfx): d = s.local(d)
        def dst(): return d or s.tmp()
        k = e[0]
        if k == 'path' and len(e[1]) == 1:
            g = s.getreg(e[1][0])
            if g: return g
            s.err(f'unknown value {e[1][0]}')
        if k == 'block':
            if len(e[1]) == 1 and e[1][0][0] == 'expr': return s.val(e[1][0][1], d)
        if k == 'match': return s.ycc(s.varms(e), dst())
        if k == 'as':
            n = SIZES.get(e[2])
            if not n: s.err(f'cast to {e[2]}')
            r, w = s.val(e[1])
            if n == w: return r, w
            t = dst(); s.op(t, f'OBytes 0 {n}' if n < w else f'OZext {n}', r); return t, n
        if k == 'bin':
            op = e[1]
            if op in ('<<', '>>'):
                c = s.cint(e[3])
                if c is None or c % 8: s.err(f'shift by {e[3]}')
                r, w = s.val(e[2])
                if c == 0: return r, w
                if c // 8 >= w: s.err('shift overflow')
                t = dst(); s.op(t, f'{"OShl" if op == "<<" else "OShr"} {c//8}', r); return t, w
            if op in ('|', '&'):
                a, wa = s.val(e[2])
                cb = s.cint(e[3])
                if cb is not None:
                    b = s.tmp(); s.op(b, f'OConst {coq_bytes(enc(cb, wa))}'); wb = wa
                else: b, wb = s.val(e[3])
                if wa != wb: s.err('or width')
                t = dst(); s.op(t, 'OOr' if op == '|' else 'OAnd', a, b); return t, wa
            s.err(f'binary {op}')
        if k == 'meth':
            if e[2] == 'raw_value': return s.val(e[1], d)
            p = s.ptr(e[1])
            if p:
                m = re.match(r'^read_(u8|u16|u32|u64)_at$', e[2])
                if m: return s.load((p[0], p[1] + s.cint(e[3][0]), 1), SIZES[m.group(1)], dst())
                if e[2] == 'read_unaligned': return s.load(p, p[2], dst())
                if e[2] == 'read':
                    if p[2] != 1: s.err('aligned read')
                    return s.load(p, 1, dst())
            m = RX_YCC.match(e[2])
            if m: s.err('fixed-variant YCoCg')
            s.err(f'method {e[2]}')
        if k == 'un' and e[1] == '*':
            p = s.ptr(e[2])
            if p and p[2] == 1: return s.load(p, 1, dst())
        if k == 'call':
            fn = e[1][1]; f = fn[-1]; a = e[2]; gen = e[1][2]
            if f == 'read_unaligned':
                p = s.ptr(a[0]); return s.load(p, p[2], dst())
            if fn[-2:] == ['Color565', 'from_raw']: 
                r, w = s.val(a[0])
                if w != 2: s.err('from_raw width')
                return r, w
            bs = s.fn.vconst(e, s.outer)
            if bs is not None:
                t = dst(); s.op(t, f'OConst {coq_bytes(bs)}'); return t, len(bs)
            return s.intrin(f, a, gen, dst, fn)
        s.err(f'value {k}')
    def load(s, p, n, d):
        if p is None: s.err('load source')
        s.useptr(p[0])
        s.emit(f'ILoad "{d}" "{p[0]}" {z(p[1])} {n}'); return d, n
    def imm(s, x):
        c = s.cint(x)
        if c is None: s.err(f'immediate {x}')
        return c
    def intrin(s, f, a, gen, dst, path):
        if gen: a = a + [g for g in gen]
        m = re.match(r'^_mm(\d*)_(.*)$', f)
        if not m:
            g = s.fn.prog.resolve(s.fn.mod, path)
            if g: 
                r = s.inline(g, a)
                if r is None: s.err(f'helper {f} has no value')
                return r
            s.err(f'call {f}')
        L = LANES[m.group(1)]; W = 16 * L; nm = m.group(2)
        s.fn.feat |= intrin_feats(f)
        def rs(xs, ws=None):
            out = []
            for i, x in enumerate(xs):
                r, w = s.val(x)
                if w != (ws[i] if ws else W): s.err(f'{f}: operand width {w}')
                if r in s.sar: s.err(f'{f}: use of a sign-extended vector')
                out.append(r)
            return out
        def go(o, regs, w=W):
            t = dst(); s.op(t, o, *regs); return t, w
        if re.match(r'^loadu_(si\d+|epi8)$', nm) or re.match(r'^load_si\d+$', nm):
            if nm.startswith('load_'): s.err('aligned load')
            return s.load(s.ptr(a[0]), W, dst())
        if nm == 'loadl_epi64':
            t = s.tmp(); s.load(s.ptr(a[0]), 8, t); return go('OZext 16', [t])
        if re.match(r'^cast(ps|pd|si\d+)_(ps|pd|si\d+)$', nm):
            def wid(x): return W if x in ('ps', 'pd') else int(x[2:]) // 8
            x, y = nm[4:].split('_'); r, w = s.val(a[0])
            if w != wid(x): s.err(f'{f}: width {w}')
            if wid(y) == w: return r, w
            return go(f'OBytes 0 {wid(y)}' if wid(y) < w else f'OCastUp {wid(y)}', [r], wid(y))
        if nm == 'shuffle_ps': return go(f'OShufps {L} {s.imm(a[2])}', rs(a[:2]))
        if nm == 'shuffle_epi32': return go(f'OPshufd {L} {s.imm(a[1])}', rs(a[:1]))
        if nm == 'shufflelo_epi16': return go(f'OPshuflw {L} {s.imm(a[1])}', rs(a[:1]))
        if nm == 'shufflehi_epi16': return go(f'OPshufhw {L} {s.imm(a[1])}', rs(a[:1]))
        q = re.match(r'^unpack(lo|hi)_epi(8|16|32|64)$', nm)
        if q: return go(f'OUnpack{q.group(1).capitalize()} {int(q.group(2))//8} {L}', rs(a))
        if nm == 'permute4x64_epi64' and L == 2: return go(f'OPermq {s.imm(a[1])}', rs(a[:1]))
        if nm == 'permute4x64_pd' and L == 2: return go(f'OPermq {s.imm(a[1])}', rs(a[:1]))
        if nm == 'shuffle_epi8' and L <= 2: return go(f'OPshufb {L}', rs(a))
        # _mm_slli_epi32(x, 16) moves two bytes up in each group of four.  _mm_srai_epi32(x, 16) is only
        # followed by _mm_packs_epi32, which then keeps the upper two bytes of each group of x:
        # see Proofs/PackFacts.v.
        def shufb(r, ix): return go('OPshufb 1', [r, s.cvec(ix)])
        if nm == 'slli_epi32' and L == 1 and s.imm(a[1]) == 16:
            return shufb(rs(a[:1])[0], [b for j in range(4) for b in (0x80, 0x80, 4*j, 4*j+1)])
        if nm == 'srai_epi32' and L == 1 and s.imm(a[1]) == 16:
            r, w = go('OMov', rs(a[:1])); s.sar[r] = True; return r, w
        if nm == 'packs_epi32' and L == 1:
            hi = [b for j in range(4) for b in (4*j+2, 4*j+3)]
            x, y = s.val(a[0])[0], s.val(a[1])[0]
            if x not in s.sar or y not in s.sar: s.err('packs of something else than srai 16')
            t1, t2, t3, t4 = s.tmp(), s.tmp(), s.tmp(), s.tmp(); k = s.cvec(hi + [0x80]*8)
            s.op(t1, 'OPshufb 1', x, k); s.op(t2, 'OBytes 0 8', t1); s.op(t3, 'OPshufb 1', y, k); s.op(t4, 'OBytes 0 8', t3)
            return go('OConcat', [t2, t4])
        if nm == 'permute2x128_si256': return go(f'OPerm2i128 {s.imm(a[2])}', rs(a[:2]))
        if nm == 'permutevar8x32_epi32':
            x, c = rs(a); return go('OPermVar 4 8', [c, x])
        q = re.match(r'^permutex2var_epi(8|16|32|64)$', nm)
        if q:
            e = int(q.group(1)) // 8; return go(f'OPermT2 {e} {W//e}', rs(a))
        if nm == 'mask_i32gather_epi32':
            # src, base, vindex, mask, scale with constant vindex and all-ones mask
            if s.imm(a[4]) != 1: s.err('gather scale')
            if s.constof(a[3]) != [255]*W: s.err('gather mask')
            ix = s.constof(a[2]); p = s.ptr(a[1])
            acc = None
            for j in range(W//4):
                off = int.from_bytes(bytes(ix[4*j:4*j+4]), 'little', signed=True)
                t = s.tmp(); s.load((p[0], p[1] + off, 1), 4, t)
                if acc is None: acc = t
                else:
                    n = dst() if j == W//4 - 1 else s.tmp()
                    s.op(n, 'OConcat', acc, t); acc = n
            return acc, W
        s.err(f'intrinsic {f}')
    def cvec(s, bs):
        t = s.tmp(); s.op(t, f'OConst {coq_bytes(bs)}'); return t
    def constof(s, e):
        b = s.fn.vconst(e, s.outer)
        if b is None: s.err('expected a constant vector')
        return b
    # asm
    def asm_ins(s, mn, ar, ops, ln):
        VW = {'xmm_reg':16,'ymm_reg':32,'zmm_reg':64}
        def reg(x):
            m = re.match(r'^\{(\w+)(?::\w+)?\}$', x)
            if not m: s.err(f'line {ln}: operand {x}')
            return m.group(1)
        def width(r):
            cls = ops[r][1]
            if cls not in VW: s.err(f'line {ln}: {r} is not a vector register')
            s.fn.feat.add({'xmm_reg': 'avx2' if mn[0] == 'v' else 'sse2', 'ymm_reg': 'avx2', 'zmm_reg': 'avx512f'}[cls])
            return VW[cls]
        def src(x):
            """vector register or memory operand"""
            if x.startswith('['):
                t = s.tmp(); p, o = memop(x); s.useptr(p); s.emit(f'ILoad "{t}" "{p}" {o} {W}'); return t
            r = reg(x)
            d, cls, ex = ops[r]
            if d in ('in',) and r not in s.usedc:
                b = s.fn.vconst(ex, s.outer)
                if b is None: s.err(f'line {ln}: register input {r} is not a constant')
                s.usedc[r] = b
            return r
        def memop(x):
            m = re.match(r'^\[\{(\w+)\}\s*(?:\+\s*(\d+|0x[0-9a-fA-F]+))?\]$', x)
            if not m: s.err(f'line {ln}: address {x}')
            if ops[m.group(1)][1] != 'reg': s.err('address register')
            return m.group(1), int(m.group(2) or '0', 0)
        def imm(x): return int(x, 0)
        if mn in ('add', 'sub'):
            r = reg(ar[0])
            if ops[r][1] != 'reg': s.err('add to vector')
            s.useptr(r); s.mutp.add(r); k = imm(ar[1]); k = -k if mn == 'sub' else k
            s.emit(f'IAddAsm "{r}" {z(k)}'); return
        MOV = ('movdqu','movaps','movups','movdqa','vmovdqu','vmovaps','vmovups','vmovdqa','vmovdqu64','vmovdqa64','vmovdqu32','vmovdqu8','vmovdqa32')
        if mn in MOV:
            if ar[0].startswith('['):
                r = reg(ar[1]); W = width(r); rr = src(ar[1]); p, o = memop(ar[0]); s.useptr(p)
                if 'a' in mn.replace('vmov','').replace('mov','')[:3] and mn in ('movaps','movdqa','vmovaps','vmovdqa','vmovdqa64','vmovdqa32'): s.err('aligned store')
                s.emit(f'IStore "{p}" {o} {W} "{rr}"'); return
            d = reg(ar[0]); W = width(d)
            if ar[1].startswith('['):
                if mn in ('movaps','movdqa','vmovaps','vmovdqa','vmovdqa64','vmovdqa32'): s.err('aligned load')
                if d in s.usedc: s.err(f'line {ln}: writes input operand {d}')
                s.ones.discard(d)
                p, o = memop(ar[1]); s.useptr(p); s.emit(f'ILoad "{d}" "{p}" {o} {W}'); return
            if d in s.usedc: s.err(f'line {ln}: writes input operand {d}')
            s.ones.discard(d); s.op(d, 'OMov', src(ar[1])); return
        if mn in ('movq', 'movhpd') and ar[0].startswith('['):
            r = reg(ar[1]); W = width(r); rr = src(ar[1]); p, o = memop(ar[0]); s.useptr(p)
            if W != 16: s.err(f'line {ln}: {mn} of {W} bytes')
            t = s.tmp(); s.op(t, 'OBytes 0 8' if mn == 'movq' else 'OBytes 8 8', rr)
            s.emit(f'IStore "{p}" {o} 8 "{t}"'); return
        d = reg(ar[0]); W = width(d); L = W // 16
        if ops[d][0] == 'in' or d in s.usedc: s.err(f'line {ln}: writes input operand {d}')
        if mn == 'vpcmpeqd' and ar == [ar[0]] * 3:
            s.op(d, f'OConst {coq_bytes([255]*W)}'); s.ones.add(d); return
        if mn == 'vpgatherdd':
            # constant indices, mask of ones; the instruction clears the mask
            g = re.match(r'^\[\{(\w+)\} \+ \{(\w+)\} \* 4\]$', ar[1]); k = reg(ar[2])
            if not g or ops[g.group(1)][1] != 'reg' or g.group(2) not in s.usedc or k not in s.ones: s.err(f'line {ln}: gather')
            s.useptr(g.group(1)); ix = s.usedc[g.group(2)]; acc = None
            for j in range(W//4):
                o = 4 * int.from_bytes(bytes(ix[4*j:4*j+4]), 'little', signed=True)
                t = s.tmp(); s.emit(f'ILoad "{t}" "{g.group(1)}" {z(o)} 4')
                if acc is None: acc = t
                else:
                    n = d if j == W//4 - 1 else s.tmp()
                    s.op(n, 'OConcat', acc, t); acc = n
            s.ones.discard(k); s.op(k, f'OConst {coq_bytes([0]*W)}'); return
        s.ones.discard(d)
        un = re.match(r'^(v?)unpck(l|h)ps$', mn)
        if un:
            o = f'OUnpack{"Lo" if un.group(2)=="l" else "Hi"} 4 {L}'
            xs = ar[1:] if un.group(1) else [ar[0], ar[1]]
            s.op(d, o, *[src(x) for x in xs]); return
        un = re.match(r'^(v?)punpck(l|h)(bw|wd|dq|qdq)$', mn)
        if un:
            e = {'bw':1,'wd':2,'dq':4,'qdq':8}[un.group(3)]
            o = f'OUnpack{"Lo" if un.group(2)=="l" else "Hi"} {e} {L}'
            xs = ar[1:] if un.group(1) else [ar[0], ar[1]]
            s.op(d, o, *[src(x) for x in xs]); return
        if mn == 'shufps': s.op(d, f'OShufps {L} {imm(ar[2])}', src(ar[0]), src(ar[1])); return
        if mn == 'vshufps': s.op(d, f'OShufps {L} {imm(ar[3])}', src(ar[1]), src(ar[2])); return
        if mn in ('pshufd', 'vpshufd'): s.op(d, f'OPshufd {L} {imm(ar[2])}', src(ar[1])); return
        if mn in ('pshuflw', 'vpshuflw'): s.op(d, f'OPshuflw {L} {imm(ar[2])}', src(ar[1])); return
        if mn in ('pshufhw', 'vpshufhw'): s.op(d, f'OPshufhw {L} {imm(ar[2])}', src(ar[1])); return
        if mn == 'movhlps': s.op(d, 'OMovhlps', src(ar[0]), src(ar[1])); return
        if mn in ('vpermq', 'vpermpd') and L == 2: s.op(d, f'OPermq {imm(ar[2])}', src(ar[1])); return
        if mn in ('vperm2i128', 'vperm2f128'): s.op(d, f'OPerm2i128 {imm(ar[3])}', src(ar[1]), src(ar[2])); return
        if mn == 'vpshufb': s.op(d, f'OPshufb {L}', src(ar[1]), src(ar[2])); return
        if mn == 'vpermd': s.op(d, f'OPermVar 4 {W//4}', src(ar[1]), src(ar[2])); return
        if mn == 'vpermt2d': s.op(d, f'OPermT2 4 {W//4}', src(ar[0]), src(ar[1]), src(ar[2])); return
        if mn == 'vpermi2d': s.op(d, f'OPermT2 4 {W//4}', src(ar[1]), src(ar[0]), src(ar[2])); return
        if mn == 'vpermt2q': s.op(d, f'OPermT2 8 {W//8}', src(ar[0]), src(ar[1]), src(ar[2])); return
        s.err(f'line {ln}: instruction {mn}')

# ---------------------------------------------------------------- driver
HEADER = '''(** Generated by tools/rs2v.py from the kernel sources cited below; do not edit.
    Simplifications: usize arithmetic is exact (lengths are below isize::MAX), see
    Model/Kernel.v for the machine. *)
From Verif Require Import Base.Bytes Base.Res Model.Color565 Model.Ycc Model.Kernel.
Open Scope string_scope.
Open Scope list_scope.
Open Scope Z_scope.

'''

HEADER_BIG = '''(** Generated by tools/rs2v.py --big from the kernel sources cited below: the same
    sources as Model/Gen*.v, compiled for a big-endian machine that is not an x86.
    Do not edit. Simplifications: usize arithmetic is exact (lengths are below
    isize::MAX), see Model/Kernel.v and Model/BigEndian.v for the machine. *)
From Verif Require Import Base.Bytes Base.Res Model.Color565 Model.Ycc Model.Kernel Model.BigEndian.
Open Scope string_scope.
Open Scope list_scope.
Open Scope Z_scope.

'''

def gen(prog, roots, where, overrides):
    """translate roots and everything they call, callees first; returns order, texts, imported files"""
    order, stack, text, files = [], [], {}, []
    def visit(f):
        key = fn_coq(f)
        if key in where:
            if where[key] not in files: files.append(where[key])
            return
        if key in text or key in stack: return
        stack.append(key)
        deps = []
        if key in overrides:
            txt, calls = overrides[key]
            txt = f'(** {f.mod.rel}:{f.line}-{f.end}, fn {f.name} (written by hand)\n' + txt
            deps = [prog.resolve(f.mod, c) for c in calls]
        else: txt = FnTr(prog, f, deps).body()
        for d in deps: visit(d)
        stack.pop(); order.append(key); text[key] = txt
    for f in roots: visit(f)
    return order, text, files

if __name__ == '__main__':
    import rs2v_roots
    rs2v_roots.main(sys.modules['__main__'], sys.argv[1:])
