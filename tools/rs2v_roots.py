"""Which functions are translated, and into which file."""
import os, glob

def main(R, argv):
    prog = R.Prog()
    for c in ('bc1', 'bc2', 'bc3', 'common'):
        crate = f'dxt-lossless-transform-{c}'
        base = f'{R.CORE}/{crate}/src'
        d = 'transform' if c != 'common' else 'transforms/split_565_color_endpoints'
        for p in sorted(glob.glob(f'{base}/{d}/**/*.rs', recursive=True)):
            if '/bench/' in p or os.path.basename(p).startswith('test'): continue
            prog.load(crate, os.path.relpath(p, base))
    prog.load('dxt-lossless-transform-bc3', 'utils.rs')
    where, bad = {}, 0
    overrides = OVERRIDES
    if R.BIG:
        overrides = {'be_' + k: (big(t), d) for k, (t, d) in OVERRIDES.items()}
    for c, mods, file in FILES:
        if R.BIG: file = file.replace('Gen', 'GenBe')
        roots = [prog.m[(f'dxt_lossless_transform_{c}',) + tuple(p)].fns[n] for p, n in mods]
        try: order, text, files = R.gen(prog, roots, where, overrides)
        except R.Err as e:
            print('ERR', file, e); bad += 1; continue
        for k in order: where[k] = file
        body = ''.join(text[k] for k in order)
        if 'color_batch_' in body: files.append('ColorBatch')
        if R.BIG: hdr = R.HEADER_BIG.replace('Model.BigEndian.', ' '.join(['Model.BigEndian'] + ['Model.' + f for f in files if f != 'ColorBatch']) + '.')
        else: hdr = R.HEADER.replace('Model.Ycc Model.Kernel.', ' '.join(['Model.Ycc Model.Kernel'] + ['Model.' + f for f in files]) + '.')
        open(f'/verif/rocq/theories/Model/{file}.v', 'w').write(hdr + body)
        print('ok', file, len(order), *files)
    print(len(FILES) - bad, 'files', bad, 'errors')
    if not R.BIG: bench(R, prog, where)

def bench(R, prog, where):
    """The kernels behind the `bench` feature: every function of a bench module that takes pointers,
    and the functions of the crate's own bench module that only forward to a kernel."""
    for c in ('bc1', 'bc2', 'bc3', 'common'):
        crate = f'dxt-lossless-transform-{c}'; cr = crate.replace('-', '_')
        base = f'{R.CORE}/{crate}/src'
        for p in sorted(glob.glob(f'{base}/transform*/**/bench/*.rs', recursive=True)):
            prog.load(crate, os.path.relpath(p, base))
        if c != 'common': prog.load_inline(crate, 'bench/mod.rs')
        if c == 'bc2': prog.load_inline(crate, 'transform/standard/untransform/mod.rs')
        roots = [f for path, m in prog.m.items() if path[0] == cr and 'bench' in path for f in m.fns_l
                 if any('*' in ''.join(t) for _, t in f.params)]
        order, text, files = R.gen(prog, roots, where, OVERRIDES)
        file = {'bc1': 'GenBenchBc1', 'bc2': 'GenBenchBc2', 'bc3': 'GenBenchBc3', 'common': 'GenBenchSplit565'}[c]
        for k in order: where[k] = file
        body = ''.join(text[k] for k in order)
        hdr = R.HEADER.replace('Model.Ycc Model.Kernel.', ' '.join(['Model.Ycc Model.Kernel Model.KernelBench'] + ['Model.' + f for f in files]) + '.')
        open(f'/verif/rocq/theories/Model/{file}.v', 'w').write(hdr + body)
        print('ok', file, len(order), *files)

def big(t):
    for a in ('bc1_scr_u', 'bc1_std_u', 'color_batch'): t = t.replace(a, 'be_' + a)
    return t.replace('negb (is_x86 c) && ', '')

def fam(name, t, u):
    return [(('transform', name, 'transform'), t), (('transform', name, 'untransform'), u)]
N = {'standard': ('transform', 'untransform', 'Std'),
     'with_recorrelate': ('transform_with_decorrelate', 'untransform_with_recorrelate', 'Rec'),
     'with_split_colour': ('transform_with_split_colour', 'untransform_with_split_colour', 'Sc'),
     'with_split_colour_and_recorr': ('transform_with_split_colour_and_recorr', 'untransform_with_split_colour_and_recorr', 'Scr'),
     'with_split_alphas': ('transform_with_split_alphas', 'untransform_with_split_alphas', 'Sa'),
     'with_split_alphas_and_colour': ('transform_with_split_alphas_and_colour', 'untransform_with_split_alphas_and_colour', 'Sac'),
     'with_split_alphas_and_recorr': ('transform_with_split_alphas_and_recorr', 'untransform_with_split_alphas_and_recorr', 'Sar'),
     'with_split_alphas_colour_and_recorr': ('transform_with_split_alphas_colour_and_recorr', 'untransform_with_split_alphas_colour_and_recorr', 'Sacr')}
FILES = []
for c in ('bc1', 'bc2', 'bc3'):
    for f, (t, u, s) in N.items():
        if c != 'bc3' and 'alphas' in f: continue
        mods = fam(f, t, u)
        if c == 'bc1' and f == 'standard':
            mods += [(mods[0][0], 'transform_with_separate_pointers'), (mods[1][0], 'untransform_with_separate_pointers')]
        FILES.append((c, mods, f'Gen{c.capitalize()}{s}'))
FILES.append(('common', [(('transforms', 'split_565_color_endpoints'), 'split_color_endpoints')], 'GenSplit565'))

# The one kernel that allocates: the work buffer is the output buffer of the first
# step and the auxiliary input of the second.
OVERRIDES = {
 'bc1_scr_u_generic_untransform_with_split_colour_and_recorr_generic': ("""    Simplification: the allocation of the work buffer succeeds; its contents are
    arbitrary (the junk byte). *)
Definition bc1_scr_u_generic_untransform_with_split_colour_and_recorr_generic (c : cfg) (color0_in : ptr) (color1_in : ptr) (indices_in : ptr) (output_ptr : ptr) (block_count : Z) (recorrelation_mode : variant) (m : mem) : res mem :=
  if negb (is_x86 c) && (128 <=? block_count) then
    let work := List.repeat (c_junk c) (Z.to_nat (block_count * 8)) in
    do m1 <- color_batch_recorrelate_ptr_split c color0_in color1_in (Ptr BOut 0) (block_count * 2) recorrelation_mode
               (Mem (m_in m) (m_aux m) work) ;;
    do m2 <- bc1_std_u_untransform_with_separate_pointers c (Ptr BAux 0) indices_in output_ptr (block_count * 8)
               (Mem (m_in m) (m_out m1) (m_out m)) ;;
    Ok (Mem (m_in m) (m_aux m) (m_out m2))
  else
    match recorrelation_mode with
    | VNone => Ub "unreachable_unchecked"
    | V1 => bc1_scr_u_generic_untransform_recorr_var1 c color0_in color1_in indices_in output_ptr block_count m
    | V2 => bc1_scr_u_generic_untransform_recorr_var2 c color0_in color1_in indices_in output_ptr block_count m
    | V3 => bc1_scr_u_generic_untransform_recorr_var3 c color0_in color1_in indices_in output_ptr block_count m
    end.

""", [['untransform_recorr_var1'], ['untransform_recorr_var2'], ['untransform_recorr_var3'],
      ['crate', 'transform', 'standard', 'untransform', 'untransform_with_separate_pointers']]),
}
