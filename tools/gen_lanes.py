#!/usr/bin/env python3
"""Translate the straight-line YCoCg-R register intrinsics into Gallina.

Every function of intrinsics/color_565/{decorrelate,recorrelate}/{sse2,avx2,avx512bw}.rs
is a straight-line sequence of `let [mut] x = expr;` / `x = expr;` statements and a
final expression, and every instruction acts on each 16-bit lane separately (the
only 32-bit constants are broadcast by set1_epi32, hence the `odd` argument).
Usage: gen_lanes.py > theories/Model/LanesGen.v
"""
import re, sys
BASE = '/repo/src/core/dxt-lossless-transform-common/src/intrinsics/color_565'
OPS = {'srli_epi16': 'w_srli', 'slli_epi16': 'w_slli', 'add_epi16': 'w_add', 'sub_epi16': 'w_sub',
       'and_si128': 'w_and', 'and_si256': 'w_and', 'and_si512': 'w_and',
       'or_si128': 'w_or', 'or_si256': 'w_or', 'or_si512': 'w_or',
       'set1_epi16': 'w_set1_16', 'set1_epi32': 'w_set1_32 odd', 'ternarylogic_epi32': 'w_tern'}

def parse(tok, i):
    t = tok[i]
    if re.match(r'_mm\d*_', t):
        name = re.sub(r'^_mm\d*_', '', t)
        assert tok[i+1] == '('
        args = []; i += 2
        while tok[i] != ')':
            e, i = parse(tok, i); args.append(e)
            if tok[i] == ',': i += 1
        if name == 'ternarylogic_epi32':
            a, b, c, imm = args
            return f'(w_tern {imm} {a} {b} {c})', i+1
        return f'({OPS[name]} {" ".join(args)})', i+1
    if re.match(r'-?\d', t): return f"({int(re.sub('(i32|_)', '', t), 0)})", i+1
    assert re.match(r'[a-z]\w*$', t), t
    return t, i+1

def expr(s):
    tok = re.findall(r'-?\w+|[(),]', s)
    e, i = parse(tok, 0)
    assert i == len(tok), (s, tok[i:])
    return e

out = []
names = []
for d in ('decorrelate', 'recorrelate'):
    for isa in ('sse2', 'avx2', 'avx512bw'):
        lines = open(f'{BASE}/{d}/{isa}.rs').read().split('\n')
        i = 0
        while i < len(lines):
            if 'mod tests' in lines[i]: break
            m = re.match(r'pub unsafe fn (\w+)\((\w+): __m\d+i\) -> __m\d+i \{', lines[i])
            if not m: i += 1; continue
            start = i; j = i
            while lines[j] != '}': j += 1
            body = ' '.join(re.sub(r'//.*', '', l).strip() for l in lines[i+1:j])
            stm = [s.strip() for s in body.split(';')]
            name = m.group(1); names.append(name)
            out.append(f'(** src/core/dxt-lossless-transform-common/src/intrinsics/color_565/{d}/{isa}.rs:{start+1}-{j+1} *)')
            out.append(f'Definition {name} (odd : bool) ({m.group(2)} : Z) : Z :=')
            for s in stm[:-1]:
                mm = re.match(r'(?:let (?:mut )?)?(\w+) = (.*)$', s)
                out.append(f'  let {mm.group(1)} := {expr(mm.group(2))} in')
            out.append(f'  {expr(stm[-1])}.\n')
            i = j
assert len(names) == 18
print('''(** GENERATED by /verif/tools/gen_lanes.py - do not edit.
    The SSE2 / AVX2 / AVX512BW YCoCg-R register functions of
    src/core/dxt-lossless-transform-common/src/intrinsics/color_565/, statement by
    statement, as functions of one 16-bit lane. [odd] is the lane's parity: it only
    matters for set1_epi32, whose 32-bit constant covers an even and an odd lane. *)
From Verif Require Import Base.Bytes Model.Lanes.
''')
print('\n'.join(out))
