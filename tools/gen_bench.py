#!/usr/bin/env python3
"""Write Proofs/KBench*.v: for the kernels behind the `bench` feature, the lemmas that they do
what the block shape of the production kernel says.  Run from /verif."""
import re

T = 'rocq/theories/'
FILES = {'BenchBc1': ['Bc1Std'], 'BenchBc2': ['Bc2Std'], 'BenchBc3': ['Bc3Std', 'Bc3Sa']}
SECTIONS = {'bc1_std': ['colors', 'indices'], 'bc2_std': ['alpha', 'colors', 'indices'],
            'bc3_std': ['alpha', 'abits', 'colors', 'indices'],
            'bc3_sa': ['alpha0', 'alpha1', 'abits', 'colors', 'indices']}
# proved by hand
HAND = {'bc1_std_t_bench_portable64_shift_unroll_4', 'bc1_std_t_bench_portable64_shift_unroll_8',
        'bc1_bench_std_shift_unroll_4', 'bc1_bench_std_shift_unroll_8'}

def section(n):
    for a, b in [('alpha0', 'alpha0'), ('alpha1', 'alpha1'), ('alpha_ind', 'abits'), ('alpha_bit', 'abits'),
                 ('alpha', 'alpha'), ('color_ind', 'indices'), ('color', 'colors'), ('ind', 'indices')]:
        if a in n: return b

def parse(path):
    out = {}
    for mt in re.finditer(r'^Definition (\w+) \(c : cfg\)((?: \(\w+ : \w+\))*) \(m : mem\) : res mem :=\n(.*?)(?=\n\n|\Z)',
                          open(path).read(), re.S | re.M):
        out[mt.group(1)] = (re.findall(r'\((\w+) : (\w+)\)', mt.group(2)), mt.group(3))
    return out

def calls(body): return re.findall(r'(?:do m <- |then |else )(\w+) c\b', body)

def main():
    for gen, deps in FILES.items():
        fs = parse(T + f'Model/Gen{gen}.v'); allf = dict(fs)
        for d in deps: allf.update(parse(T + f'Model/Gen{d}.v'))
        def feats(n):
            own = re.search(r'cpu_has \(([^)]*)\)', allf[n][1])
            r = set(re.findall(r'c_\w+ c', own.group(1))) if own else set()
            for x in calls(allf[n][1]): r |= feats(x) - {'is_x64 c', 'is_i686 c'}
            if 'is_x64' in allf[n][1] or 'is_i686' in allf[n][1]: r.add('is_x86 c')
            return r
        L = ['From Verif Require Import Base.Bytes Base.Res Model.Color565 Model.Ycc Model.Kernel Model.KernelBench',
             '  ' + ' '.join('Model.Gen' + d for d in deps + [gen]),
             '  Proofs.KernelCheck Proofs.KernelLoop Proofs.KernelFun Proofs.Shapes Proofs.KernelBenchFun ' +
             ' '.join('Proofs.K' + d for d in deps) + '.',
             'From Coq Require Import ZifyBool ZifyNat.', '']
        for n, (params, body) in fs.items():
            if n in HAND: continue
            crate = n[:3]; fam = crate + ('_sa' if '_sa_' in n else '_std'); blk = 8 if crate == 'bc1' else 16
            d = 'u' if n.startswith((fam + '_u_', crate + '_bench_u_')) else 't'
            ptrs = [p for p, t in params if t == 'ptr']; top = set(ptrs) == {'input_ptr', 'output_ptr'}; args = []
            for p, t in params:
                if t == 'Z': args.append(f'({blk} * n)' if p == 'len' else 'n')
                elif top: args.append('(P (PI 0))' if p == 'input_ptr' else '(P (PO 0))')
                elif d == 't' and p == 'input_ptr': args.append('(P (PI 0))')
                elif d == 'u' and p == 'output_ptr': args.append('(P (PO 0))')
                else: args.append('(P (%s %d))' % ('PO' if d == 't' else 'PI', SECTIONS[fam].index(section(p))))
            fe = sorted(feats(n))
            nz = any('(0 <? block_count)' in allf[x][1] for x in calls(body))
            L.append(f'Lemma {n}_ok : forall c, {"TSPEC" if top else "SPEC"} c VNone sh_{fam}_{d} ({" && ".join(fe) or "true"}) {"(nz_debug c)" if nz else "any_n"}')
            L.append(f'  (fun P n m => {n} c {" ".join(args)} m).')
            cl = ' | '.join(f'kcall {x}_ok' for x in dict.fromkeys(calls(body)))
            L.append(f'Proof. intros c. kstart {n}. kbench ltac:({"first [" + cl + "]" if cl else "fail"}). Qed.')
            L.append('')
        open(T + f'Proofs/K{gen}.v', 'w').write('\n'.join(L))
main()

# the endpoint splitters: the shortest input, in bytes, that each can take
def split():
    gen, deps = 'BenchSplit565', ['Split565']
    pre = 'common_transforms_split_565_color_endpoints_'
    fs = parse(T + f'Model/Gen{gen}.v'); allf = dict(fs); allf.update(parse(T + 'Model/GenSplit565.v'))
    KNOWN = {pre + 'portable32_u32': 'portable_ok', pre + 'avx512_avx512_impl': 'avx512_ok',
             pre + 'avx2_avx2_shuf_impl_asm': 'avx2_ok', pre + 'sse2_sse2_shuf_unroll2_impl_asm': 'sse2_ok',
             pre + 'portable32_u32_with_separate_endpoints': 'u32_with_separate_endpoints_ok'}
    def feats(n):
        own = re.search(r'cpu_has \(([^)]*)\)', allf[n][1])
        r = set(re.findall(r'c_\w+ c', own.group(1))) if own else set()
        for x in calls(allf[n][1]): r |= feats(x)
        return r
    def need(n):
        m = re.search(r'ptr_add m \w+ \(- \((\d+)\)\)', allf[n][1])
        return max([int(m.group(1)) if m else 0] + [need(x) for x in calls(allf[n][1])])
    L = ['From Verif Require Import Base.Bytes Base.Res Model.Color565 Model.Ycc Model.Kernel Model.KernelBench Model.GenSplit565 Model.GenBenchSplit565',
         '  Proofs.KernelCheck Proofs.KernelLoop Proofs.KernelFun Proofs.Shapes Proofs.KernelBenchFun Proofs.KSplit565.',
         'From Coq Require Import ZifyBool ZifyNat.', '',
         '(** at least [k] bytes of colours; in a debug build at least one pair *)',
         'Definition from_bytes (c : cfg) (k : Z) : Z -> Prop := fun n => k <= 4 * n /\\ (c_debug c = true -> 0 < n).',
         'Ltac ktailb :=',
         '  lazymatch goal with I : INV _ _ _ _ _ ?kk ?m |- exists m\', _ /\\ INV _ _ _ _ _ ?k\' m\' => ktail (k\' - kk) end.',
         'Ltac kpreb := unfold from_bytes, from64, nz_debug, any_n in *; repeat match goal with H : _ /\\ _ |- _ => destruct H end;',
         '  solve [exact Logic.I | assumption | lia | split; [lia | assumption]].',
         'Ltac kcallb L :=',
         '  lazymatch goal with',
         '  | W : WF (Conf ?sh ?ins ?outs) ?m0 ?N, I : INV ?j ?v (Conf ?sh ?ins ?outs) ?m0 ?N 0 ?m, K : cpu_ok ?c,',
         '    HC : CONTIG (Conf ?sh ?ins ?outs) ?N |- exists m\', bind ?call _ = _ /\\ _ =>',
         '      let m1 := fresh "m" in let X := fresh "X" in let I\' := fresh "I" in',
         '      destruct (L c ins outs m0 N m K) as (m1 & X & I\');',
         '      [kfeat | kpreb | exact W | exact HC | klia | exact I | ]; cbv beta in X; rewrite X; clear X I; cbn [bind]',
         '  end.', '']
    for n, (params, body) in fs.items():
        if [p for p, t in params if t == 'ptr'] != ['colors', 'colors_out']: continue
        cs = list(dict.fromkeys(calls(body)))
        tail = [x for x in cs if 'separate_endpoints' in x]
        L.append(f'Lemma {n}_ok : forall c, TSPEC c VNone sh_split ({" && ".join(sorted(feats(n))) or "true"}) (from_bytes c {need(n)})')
        L.append(f'  (fun P n m => {n} c (P (PI 0)) (P (PO 0)) (n * 4) m).')
        cl = 'ktailb' if tail else ' | '.join(f'kcallb {KNOWN.get(x, x + "_ok")}' for x in cs)
        hd = 'pose proof Hp as Hq0; destruct Hp as [Hp Hdb]. ' 
        L.append(f'Proof. intros c. kstart {n}. {hd}kbench ltac:(first [{cl}]). Qed.')
        L.append('')
    open(T + f'Proofs/K{gen}.v', 'w').write('\n'.join(L))
split()

# Model/Bench.v: the public functions of the bench modules, by name
def lemmas(gen):
    s = open(T + f'Proofs/KBench{gen}.v').read()
    return re.findall(r'^Lemma (\w+)_ok : forall c, (T?SPEC) c VNone (\w+) \((.*?)\) (any_n|\(nz_debug c\)|\(from_bytes c (\d+)\))\n  \(fun P n m => \w+ c (.*?) m\)\.', s, re.M)
def tables():
    L = ['(** The public functions behind the [bench] feature that take the input, the output and',
         '    the length in bytes: the name, the CPU features the function is compiled for, the function.',
         '    src/core/dxt-lossless-transform-bc1/src/bench/mod.rs:9-349, src/core/dxt-lossless-transform-bc2/src/bench/mod.rs:9-110, src/core/dxt-lossless-transform-bc3/src/bench/mod.rs:10-212,',
         '    src/core/dxt-lossless-transform-common/src/transforms/split_565_color_endpoints/bench/mod.rs:14-156. Written by tools/gen_bench.py. *)',
         'From Verif Require Import Base.Bytes Base.Res Model.Color565 Model.Ycc Model.Kernel Model.KernelBench',
         '  Model.GenBenchBc1 Model.GenBenchBc2 Model.GenBenchBc3 Model.GenSplit565 Model.GenBenchSplit565.', '',
         'Open Scope string_scope.', 'Open Scope list_scope.', 'Open Scope Z_scope.', '',
         '(** src/core/dxt-lossless-transform-bc1/src/bench/mod.rs:9-349 *)', 'Definition kernel := cfg -> ptr -> ptr -> Z -> mem -> res mem.',
         'Definition bench_entry : Type := string * (cfg -> bool) * kernel.', '']
    P = []
    for gen in ('Bc1', 'Bc2', 'Bc3'):
        g = gen.lower(); 
        for d, pre in (('t', f'{g}_bench_std_'), ('u', f'{g}_bench_u_std_')):
            ls = [x for x in lemmas(gen) if x[0].startswith(pre) and x[1] == 'TSPEC' and x[4] == 'any_n']
            name = f'{g}_bench_' + ('transforms' if d == 't' else 'untransforms')
            L.append(f'Definition {name} : list bench_entry :=')
            L.append('  [' + ';\n   '.join(f'("{n[len(pre):]}", (fun c => {f}), {n})' for n, _, _, f, _, _, _ in ls) + '].\n')
            P.append((g, d, name, [x[0] for x in ls]))
    pre = 'common_transforms_split_565_color_endpoints_bench_'
    ls = [x for x in lemmas('Split565') if not re.match(r'(avx2_avx2|avx512_avx512|portable64|sse2_sse2|ssse3_ssse3)', x[0][len(pre):])]
    L.append('(** The endpoint splitters also ask for a least number of bytes.\n    src/core/dxt-lossless-transform-common/src/transforms/split_565_color_endpoints/bench/mod.rs:14-156 *)')
    L.append('Definition split_bench : list (string * (cfg -> bool) * Z * kernel) :=')
    L.append('  [' + ';\n   '.join(f'("{n[len(pre):]}", (fun c => {f}), {k}, {n})' for n, _, _, f, _, k, _ in ls) + '].\n')
    open(T + 'Model/Bench.v', 'w').write('\n'.join(L))
    return P, [x[0] for x in ls]
P, SP = tables()
LAY = {'bc1': '8 (bc1_layout VNone false)', 'bc2': '16 (bc2_layout VNone false)', 'bc3': '16 (bc3_layout VNone false false)'}

L = ['(** What the functions of Model/Bench.v write. Written by tools/gen_bench.py. *)',
     'From Verif Require Import Base.Bytes Base.Res Model.Color565 Model.Ycc Model.Kernel Model.KernelBench',
     '  Model.GenBenchBc1 Model.GenBenchBc2 Model.GenBenchBc3 Model.GenSplit565 Model.GenBenchSplit565 Model.Bench',
     '  Proofs.KernelCheck Proofs.KernelLoop Proofs.KernelFun Proofs.Shapes Spec.YCoCg Spec.Layout',
     '  Proofs.LayoutFacts Proofs.ShapeLayout Proofs.Families Proofs.TransformFacts Proofs.Split565Facts',
     '  Proofs.BenchRun Proofs.KBenchBc1 Proofs.KBenchBc2 Proofs.KBenchBc3 Proofs.KBenchSplit565.',
     'From Coq Require Import ZifyBool ZifyNat.', '']
for g, d, name, ns in P:
    L.append(f'Lemma {name}_run : Forall ({d}_entry {LAY[g]}) {name}.')
    L.append('Proof.')
    L.append(f'  repeat (apply Forall_cons || apply Forall_nil); intros c K Hf; cbn [fst snd] in *.')
    L += [f'  - exact ({g}_{d}_run0 c _ _ ({n}_ok c) K Hf).' for n in ns]
    L.append('Qed.')
L.append('Lemma split_bench_run : Forall split_entry split_bench.')
L.append('Proof.')
L.append('  repeat (apply Forall_cons || apply Forall_nil); intros c K Hf; cbn [fst snd] in *.')
L += [f'  - exact (split_run0 c _ _ _ ({n}_ok c) K Hf).' for n in SP]
L.append('Qed.')
open(T + 'Proofs/BenchFacts.v', 'w').write('\n'.join(L) + '\n')
