#!/usr/bin/env python3
"""Write Proofs/K*.v: for every kernel function in Model/Gen*.v, the lemma that it
does what its block shape says, with the same proof script for each.  Run from /verif."""
import re, glob, os

T = 'rocq/theories/'
FAMS = {
  'Bc1Std': 'bc1_std', 'Bc1Rec': 'bc1_rec', 'Bc1Sc': 'bc1_sc', 'Bc1Scr': 'bc1_scr',
  'Bc2Std': 'bc2_std', 'Bc2Rec': 'bc2_rec', 'Bc2Sc': 'bc2_sc', 'Bc2Scr': 'bc2_scr',
  'Bc3Std': 'bc3_std', 'Bc3Rec': 'bc3_rec', 'Bc3Sc': 'bc3_sc', 'Bc3Scr': 'bc3_scr',
  'Bc3Sa': 'bc3_sa', 'Bc3Sac': 'bc3_sac', 'Bc3Sar': 'bc3_sar', 'Bc3Sacr': 'bc3_sacr',
}
SECTIONS = {
  'bc1_std': ['colors', 'indices'], 'bc1_rec': ['colors', 'indices'],
  'bc1_sc': ['color0', 'color1', 'indices'], 'bc1_scr': ['color0', 'color1', 'indices'],
  'bc2_std': ['alpha', 'colors', 'indices'], 'bc2_rec': ['alpha', 'colors', 'indices'],
  'bc2_sc': ['alpha', 'color0', 'color1', 'indices'], 'bc2_scr': ['alpha', 'color0', 'color1', 'indices'],
  'bc3_std': ['alpha', 'abits', 'colors', 'indices'], 'bc3_rec': ['alpha', 'abits', 'colors', 'indices'],
  'bc3_sc': ['alpha', 'abits', 'color0', 'color1', 'indices'],
  'bc3_scr': ['alpha', 'abits', 'color0', 'color1', 'indices'],
  'bc3_sa': ['alpha0', 'alpha1', 'abits', 'colors', 'indices'],
  'bc3_sar': ['alpha0', 'alpha1', 'abits', 'colors', 'indices'],
  'bc3_sac': ['alpha0', 'alpha1', 'abits', 'color0', 'color1', 'indices'],
  'bc3_sacr': ['alpha0', 'alpha1', 'abits', 'color0', 'color1', 'indices'],
}
# proved by hand
SKIP = {'bc1_scr_u_untransform_with_split_colour_and_recorr_x86',
        'bc1_scr_u_generic_untransform_with_split_colour_and_recorr_generic',
        'bc1_scr_u_untransform_with_split_colour_and_recorr'}

# these read past the end of a section, so they need what follows it
CONTIG = {'bc3_std_u_avx512vbmi_64_avx512_untransform_separate_components',
          'bc3_std_u_avx512vbmi_32_avx512_untransform_separate_components_32',
          'bc3_rec_u_avx512vbmi_64_untransform_recorr_64', 'bc3_rec_u_avx512vbmi_32_untransform_recorr_32',
          'bc3_rec_u_avx512vbmi_untransform_with_recorrelate', 'bc3_rec_u_untransform_with_recorrelate_x86'}
for i in '123':
    for a in ('64', '32'):
        CONTIG.add('bc3_rec_u_avx512vbmi_%s_untransform_recorr_%s_var%s' % (a, a, i))
        CONTIG.add('bc3_rec_u_avx512vbmi_untransform_recorr_var%s' % i)

def section(name):
    n = name
    for a, b in [('alpha0', 'alpha0'), ('alpha1', 'alpha1'), ('alpha_ind', 'abits'), ('alpha_bit', 'abits'),
                 ('alpha', 'alpha'), ('color0', 'color0'), ('color1', 'color1'), ('color_ind', 'indices'),
                 ('color', 'colors'), ('colour', 'colors'), ('ind', 'indices')]:
        if a in n: return b
    return None

class F: pass

def parse(path):
    s = open(path).read()
    out = []
    for mt in re.finditer(r'^Definition (\w+) \(c : cfg\)((?: \(\w+ : \w+\))*) \(m : mem\) : res mem :=\n(.*?)(?=\n\n|\Z)', s, re.S | re.M):
        f = F()
        f.name, f.body = mt.group(1), mt.group(3)
        f.params = re.findall(r'\((\w+) : (\w+)\)', mt.group(2))
        out.append(f)
    return out

def main(big):
    for gen, fam in FAMS.items():
        if big: gen = 'Be' + gen
        fs = [f for f in parse(T + 'Model/Gen%s.v' % gen)]
        byname = {f.name: f for f in fs}
        blk = 8 if fam.startswith('bc1') else 16
        ycc = fam.split('_')[1] in ('rec', 'scr', 'sar', 'sacr')
        L = ['From Verif Require Import Base.Bytes Base.Res Model.Color565 Model.Ycc Model.Kernel Model.ColorBatch Model.Gen%s' % gen,
             '  Proofs.KernelCheck Proofs.KernelLoop Proofs.KernelFun Proofs.Shapes%s.' % (' Proofs.BeShapes' if big else ''),
             'From Coq Require Import ZifyBool ZifyNat.', '']
        for f in fs:
            if f.name.replace('be_', '', 1) in SKIP: continue
            d = 't' if f.name.startswith(('be_' if big else '') + fam + '_t_') else 'u'
            args, top, hasv = [], False, False
            names = [p for p, t in f.params if t == 'ptr']
            top = set(names) == {'input_ptr', 'output_ptr'}
            v = 'v' if ycc else 'VNone'
            mv = re.search(r'_var([123])$', f.name)
            if mv: v = 'V' + mv.group(1)
            for p, t in f.params:
                if t == 'variant': args.append(v)
                elif p == 'VARIANT': args.append('(vnum %s)' % v)
                elif t == 'Z': args.append('(%d * n)' % blk if p == 'len' else 'n')
                elif p == 'alpha_byte_end_ptr': args.append('(padd (P (PO 0)) (n * 2))')
                elif top: args.append('(P (%s 0))' % ('PI' if p == 'input_ptr' else 'PO'))
                elif d == 't' and p == 'input_ptr': args.append('(P (PI 0))')
                elif d == 'u' and p in ('output_ptr', 'current_output_ptr'): args.append('(P (PO 0))')
                else:
                    k = SECTIONS[fam].index(section(p))
                    args.append('(P (%s %d))' % ('PO' if d == 't' else 'PI', k))
            f.callees = [x for x in byname if re.search(r'\b%s c\b' % x, f.body) and x != f.name and x.replace('be_', '', 1) not in SKIP]
            own = re.search(r'cpu_has \(([^)]*)\)', f.body)
            feats = set(re.findall(r'c_\w+ c', own.group(1))) if own else set()
            dispatch = re.search(r'if (negb \(c_static|has_|c_|is_)', f.body) is not None
            if not dispatch or 'avx512vbmi_untransform' in f.name:
                for x in f.callees:
                    if 'is_x86 c' not in f.body: feats |= byname[x].feats
            if f.name.endswith('_x86'): feats |= {'is_x86 c'}
            if f.name.endswith('_x64'): feats |= {'is_x64 c'}
            if f.name.endswith('_i686'): feats |= {'is_i686 c'}
            if dispatch and fam.startswith('bc2') and any('c_avx512vl c' in byname[x].feats for x in f.callees):
                feats |= {'vl_ok c'}
            for x in f.callees:
                if x in SKIP: continue
                if 'vl_ok c' in byname[x].feats: feats |= {'vl_ok c'}
            if 'is_i686 c' in f.body: feats |= {'is_x86 c'}
            f.feats = feats
            f.nz = '(0 <? block_count)' in f.body and 'debug_assert' in f.body or \
                any(byname[x].nz for x in f.callees)
            f.v = v
            f.top = top
            fe = sorted(feats)
            if v == 'v': fe = ['vok v'] + fe
            kind = 'TSPEC' if top or f.name in CONTIG else 'SPEC'
            L.append('Lemma %s_ok : forall c%s, %s c %s sh_%s_%s (%s) %s' % (
                f.name, ' v' if v == 'v' else '', kind, v, 'be_' + fam if big and ycc else fam, d,
                ' && '.join(fe) if fe else 'true', '(nz_debug c)' if f.nz else 'any_n'))
            L.append('  (fun P n m => %s c %s m).' % (f.name, ' '.join(args)))
            calls = []
            for x in f.callees:
                if x in SKIP: continue
                g = byname[x]
                calls.append('kcall%s %s_ok' % ('v' if g.v == 'v' else '', x))
            cl = 'first [%s]' % ' | '.join(calls) if calls else 'fail'
            L.append('Proof. intros c%s. kstart %s. kauto ltac:(%s). Qed.' % (' v' if v == 'v' else '', f.name, cl))
            L.append('')
        open(T + 'Proofs/K%s.v' % gen, 'w').write('\n'.join(L))

main(False)
main(True)
