#!/usr/bin/env python3
"""Writes theories/Proofs/TransformProps.v (the proofs) and
theories/Props/P{Bc1,Bc2,Bc3}.v (the statements) for the entry-point properties
of the three formats, which differ only in names and side conditions."""
import os
ROOT = os.path.join(os.path.dirname(os.path.abspath(__file__)), '..', 'rocq', 'theories')
AND = "/\\"

HEAD = '''From Verif Require Import Base.Bytes Base.Res Model.Color565 Model.Kernel Model.Transform Spec.YCoCg Spec.Layout.
'''

def fmt_items(fmt, blk, ids):
    three = fmt == 'bc3'
    F = fmt
    st = "settings3" if three else "settings"
    args = ("(decorrelation_mode3 s) (split_alpha_endpoints s) (split_colour_endpoints3 s)" if three
            else "(decorrelation_mode s) (split_colour_endpoints s)")
    wargs = "(split_alpha_endpoints s) (split_colour_endpoints3 s)" if three else "(split_colour_endpoints s)"
    mode = "decorrelation_mode3" if three else "decorrelation_mode"
    flag = {'bc1': 'split_colour_endpoints', 'bc2': None, 'bc3': 'split_alpha_endpoints'}[F]
    items = []

    def cond(c, x):
        """a debug build on an empty input"""
        return f"(c_debug {c} = true -> {flag} s = true -> {x} <> []) ->" if flag else ""

    def pcond(c):
        return f"(c_debug {c} = true -> {flag} s = true -> 0 < len) ->" if flag else ""

    def vl(c):
        return f"(c_avx512bw {c} = true -> c_avx512vl {c} = true) ->" if F == 'bc2' else ""

    def H(*parts):
        return ' '.join(p for p in parts if p)

    def add(prop, name, comment, stmt, proof, example=None):
        items.append((prop, name, comment, stmt, proof, example))

    dbg_note = {
        'bc1': "In debug builds the split-colour kernels assert that there is at least one block, hence the condition on [c_debug]; C44 is about that.",
        'bc2': "The condition on AVX512VL is needed by the transforms only; C10_bc2_avx512vl_refuted shows what happens without it.",
        'bc3': "In debug builds a split-alpha kernel asserts that there is at least one block, hence the condition on [c_debug]; C44 is about that."}[F]
    Hd = "HD" if flag else ""
    Vl = "VL" if F == 'bc2' else ""

    def tslice(c, s, x, out, k, v, d):
        a = f"({F}_slice {c} {s} {x} {out} {k}"
        if F == 'bc2': a += f" {v}"
        if flag: a += f" {d}"
        return a

    def uslice(c, s, x, out, k, d):
        a = f"(un{F}_slice {c} {s} {x} {out} {k}"
        if flag: a += f" {d}"
        return a

    # ---- lossless
    dbg2 = f"(c_debug c1 = true {chr(92)}/ c_debug c2 = true -> {flag} s = true -> x <> []) ->" if flag else ""
    add(ids['rt'], f"{ids['rt']}_{F}_lossless",
        f"{ids['rt']}: transforming on one machine and restoring on another gives the original bytes. {dbg_note}",
        f'''forall (c1 c2 : cfg) (s : {st}) (x out1 out2 : list byte),
  cpu_ok c1 -> cpu_ok c2 -> {H(vl('c1'), dbg2)}
  zlen x mod {blk} = 0 -> zlen x <= zlen out1 -> zlen x <= zlen out2 ->
  exists y z, transform_{F} c1 s x out1 = Ok (ROk tt, y) {AND}
    untransform_{F} c2 s (firstn (List.length x) y) out2 = Ok (ROk tt, z) {AND}
    firstn (List.length x) z = x''',
        f'''  intros c1 c2 s x out1 out2 K1 K2 {Vl} {Hd} Hm H1 H2.
  destruct ({F}_fam {args}) as (sht & shu & FM).
  assert (LL : List.length ({F}_layout {args} x) = List.length x)
    by (apply (fam_len _ _ _ _ _ _ FM); unfold zlen in Hm; lia).
  pose proof {tslice('c1','s','x','out1','K1','VL','ltac:(intros; apply HD; auto)')} Hm H1) as T.
  destruct {uslice('c2','s',f'({F}_layout {args} x)','out2','K2','ltac:(intros D E Q; refine (HD (or_intror D) E _); apply length_zero_iff_nil; rewrite <- LL, Q; reflexivity)')}
    ltac:(unfold zlen in *; rewrite LL; exact Hm) ltac:(unfold zlen in *; rewrite LL; exact H2)) as (y & U & Ly & Ey).
  do 2 eexists. split; [exact T|]. rewrite firstn_app, <- LL, firstn_all, Nat.sub_diag, app_nil_r. split; [exact U|].
  rewrite <- Ly, firstn_app, firstn_all, Nat.sub_diag, app_nil_r.
  apply (fam_inj _ _ _ _ _ _ FM); [lia|rewrite Ly, LL; unfold zlen in Hm; lia|rewrite Ly; exact LL|exact Ey].''',
        (f"a 3-block texture meets the hypotheses",
         f'''let x := map (fun i => lo8 (i * 37 + 11)) (zseq 0 {3*blk}) in
  (zlen x mod {blk} = 0) {AND} x <> [] {AND}
  exists y, transform_{F} (Cfg true X86_64 false true true true true true true true x00) ({'Settings3 V2 true true' if three else 'Settings V2 true'}) x (List.repeat x00 {3*blk}) = Ok (ROk tt, y) {AND} y <> x''',
         f"  cbv zeta. repeat apply conj; [reflexivity|discriminate|]. eexists. split; [vm_compute; reflexivity|discriminate]."))
    # ---- CPU independence
    pc2 = f"(c_debug c1 = true {chr(92)}/ c_debug c2 = true -> {flag} s = true -> 0 < len) ->" if flag else ""
    add(ids['cpu'], f"{ids['cpu']}_{F}_cpu_independent",
        f"{ids['cpu']}: two machines (architecture, CPU features, build profile) leave the same memory behind.",
        f'''forall (c1 c2 : cfg) (s : {st}) (inp aux out : list byte) (a b len : Z),
  cpu_ok c1 -> cpu_ok c2 -> {H(vl('c1'), vl('c2'), pc2)}
  len mod {blk} = 0 -> 0 <= len -> 0 <= a -> 0 <= b -> a + len <= zlen inp -> b + len <= zlen out ->
  exists mt mu,
    (transform_{F}_with_settings c1 (Ptr BIn a) (Ptr BOut b) len s (Mem inp aux out) = Ok mt {AND}
     transform_{F}_with_settings c2 (Ptr BIn a) (Ptr BOut b) len s (Mem inp aux out) = Ok mt) {AND}
    (untransform_{F}_with_settings c1 (Ptr BIn a) (Ptr BOut b) len s (Mem inp aux out) = Ok mu {AND}
     untransform_{F}_with_settings c2 (Ptr BIn a) (Ptr BOut b) len s (Mem inp aux out) = Ok mu)''',
        f'''  intros c1 c2 s inp aux out a b len K1 K2 {'VL1 VL2' if F=='bc2' else ''} {Hd} Hm Hl Ha Hb Hi Ho.
  destruct ({F}_fam {args}) as (sht & shu & FM).
  destruct (un{F}_call c1 s inp aux out a b len K1 {'ltac:(intros; apply HD; auto)' if flag else ''} Hm Hl Ha Hb Hi Ho) as (y & E & L & Y).
  destruct (un{F}_call c2 s inp aux out a b len K2 {'ltac:(intros; apply HD; auto)' if flag else ''} Hm Hl Ha Hb Hi Ho) as (y' & E' & L' & Y').
  assert (y = y').
  {{ apply (fam_inj _ _ _ _ _ _ FM); [lia|unfold zlen in L; lia|unfold zlen in *; lia|].
    fold ({F}_layout {args} y) ({F}_layout {args} y'). congruence. }}
  subst y'. do 2 eexists. repeat apply conj;
    [apply {F}_call; {'auto' if F!='bc2' else 'assumption'}|apply {F}_call; {'auto' if F!='bc2' else 'assumption'}|exact E|exact E'].''')
    sh = f"(c_debug c1 = true {chr(92)}/ c_debug c2 = true -> {flag} s = true -> x <> []) ->" if flag else ""
    add(ids['cpu'], f"{ids['cpu']}_{F}_slice_cpu_independent",
        f"{ids['cpu']}, checked functions: same answer and same output bytes for every input, valid or not.",
        f'''forall (c1 c2 : cfg) (s : {st}) (x out : list byte),
  cpu_ok c1 -> cpu_ok c2 -> {H(vl('c1'), vl('c2'), sh)}
  transform_{F} c1 s x out = transform_{F} c2 s x out {AND}
  untransform_{F} c1 s x out = untransform_{F} c2 s x out''',
        f'''  intros c1 c2 s x out K1 K2 {'VL1 VL2' if F=='bc2' else ''} {Hd}.
  destruct (zlen x mod {blk} =? 0) eqn:Hm; [|unfold transform_{F}, untransform_{F}, checked; rewrite Hm; auto].
  destruct (zlen out <? zlen x) eqn:Ho; [unfold transform_{F}, untransform_{F}, checked; rewrite Hm, Ho; auto|].
  destruct ({F}_fam {args}) as (sht & shu & FM).
  assert (Hm' : zlen x mod {blk} = 0) by lia. assert (Ho' : zlen x <= zlen out) by lia.
  destruct {uslice('c1','s','x','out','K1','ltac:(intros; apply HD; auto)')} Hm' Ho') as (y & E & L & Y).
  destruct {uslice('c2','s','x','out','K2','ltac:(intros; apply HD; auto)')} Hm' Ho') as (y' & E' & L' & Y').
  split.
  - rewrite !{F}_slice by auto. reflexivity.
  - rewrite E, E'. do 3 f_equal. apply (fam_inj _ _ _ _ _ _ FM); [lia|unfold zlen in *; lia|lia|].
    fold ({F}_layout {args} y) ({F}_layout {args} y'). congruence.''',
        ("two very different machines agree on a concrete texture",
         f'''let x := map (fun i => lo8 (i * 37 + 11)) (zseq 0 {64}) in let s := {'Settings3 V1 true true' if three else 'Settings V1 true'} in
  exists y, transform_{F} (Cfg false X86_64 false true true true true true true true x00) s x x = Ok (ROk tt, y) {AND}
    transform_{F} (Cfg true OtherArch false false false false false false false false xff) s x x = Ok (ROk tt, y) {AND} y <> x''',
         f"  cbv zeta. eexists. repeat apply conj; [vm_compute; reflexivity|vm_compute; reflexivity|discriminate]."))
    # ---- memory safety
    for d, un in (('t', ''), ('u', 'un')):
        add(ids['mem'], f"{ids['mem']}_{F}_{un}transform_stays_inside",
            f"{ids['mem']}: the call never reads or writes outside its buffers (that would be [Ub]; take [a = 0] and [zlen inp = len] for a buffer with nothing around it), leaves the input alone and changes no output byte outside [b .. b + len).",
            f'''forall (c : cfg) (s : {st}) (inp aux out : list byte) (a b len : Z),
  cpu_ok c -> {H(vl('c') if d=='t' else '', pcond('c'))}
  len mod {blk} = 0 -> 0 <= len -> 0 <= a -> 0 <= b -> a + len <= zlen inp -> b + len <= zlen out ->
  exists out', {un}transform_{F}_with_settings c (Ptr BIn a) (Ptr BOut b) len s (Mem inp aux out) = Ok (Mem inp aux out') {AND}
    zlen out' = zlen out {AND}
    forall i, 0 <= i < b \\/ b + len <= i < zlen out -> znth out' i = znth out i''',
            (f'''  intros c s inp aux out a b len K {Vl} {Hd} Hm Hl Ha Hb Hi Ho.
  destruct ({F}_fam {args}) as (sht & shu & FM).
  assert (L : zlen ({F}_layout {args} (slice inp a len)) = len).
  {{ unfold {F}_layout. rewrite (lay_zlen _ _ _ _ _ _ _ FM); rewrite ?zlen_slice by lia; cbn; lia. }}
  eexists. split; [apply {F}_call; assumption|]. split.
  - apply (splice_len _ _ _ len); assumption.
  - intros i Hx. apply (splice_frame _ _ _ len); assumption.''' if d == 't' else
             f'''  intros c s inp aux out a b len K {Hd} Hm Hl Ha Hb Hi Ho.
  destruct (un{F}_call c s inp aux out a b len K {Hd} Hm Hl Ha Hb Hi Ho) as (y & E & L & Y).
  eexists. split; [exact E|]. split.
  - apply (splice_len _ _ _ len); assumption.
  - intros i Hx. apply (splice_frame _ _ _ len); assumption.'''))
    if F == 'bc2':
        add('C10', 'C10_bc2_avx512vl_refuted',
            "C10 and C13 fail on a CPU with AVX512BW but without AVX512VL: the dispatcher asks for AVX512BW only, and the kernel executes an AVX512VL instruction the CPU does not have.",
            f'''exists (c : cfg) (s : settings) (x out : list byte),
  cpu_ok c {AND} c_avx512bw c = true {AND} c_avx512vl c = false {AND} zlen x mod 16 = 0 {AND} zlen x <= zlen out {AND}
  exists why, transform_bc2 c s x out = Ub why''',
            '''  exists (Cfg false X86_64 false true true true true true false false x00), (Settings V1 false), (List.repeat x00 256), (List.repeat x00 256).
  split; [constructor; intros; reflexivity|]. do 3 (split; [reflexivity|]). split; [vm_compute; discriminate|]. eexists. vm_compute. reflexivity.''')
    # ---- layout
    add(ids['lay'], f"{ids['lay']}_{F}_layout",
        f"{ids['lay']}: the transform writes the documented layout, [{F}_layout] of Spec/Layout.v.",
        f'''forall (c : cfg) (s : {st}) (inp aux out : list byte) (a b len : Z),
  cpu_ok c -> {H(vl('c'), pcond('c'))}
  len mod {blk} = 0 -> 0 <= len -> 0 <= a -> 0 <= b -> a + len <= zlen inp -> b + len <= zlen out ->
  exists out', transform_{F}_with_settings c (Ptr BIn a) (Ptr BOut b) len s (Mem inp aux out) = Ok (Mem inp aux out') {AND}
    slice out' b len = {F}_layout {args} (slice inp a len)''',
        f'''  intros c s inp aux out a b len K {Vl} {Hd} Hm Hl Ha Hb Hi Ho.
  destruct ({F}_fam {args}) as (sht & shu & FM).
  assert (L : zlen ({F}_layout {args} (slice inp a len)) = len).
  {{ unfold {F}_layout. rewrite (lay_zlen _ _ _ _ _ _ _ FM); rewrite ?zlen_slice by lia; cbn; lia. }}
  eexists. split; [apply {F}_call; assumption|]. apply slice_splice; assumption.''')
    # ---- validation
    for d, un in (('t', ''), ('u', 'un')):
        add('C15', f"C15_{F}_{un}transform_validation",
            f"C15: what the checked {un}transform answers for every pair of lengths; errors leave the output alone.",
            f'''forall (c : cfg) (s : {st}) (x out : list byte),
  (zlen x mod {blk} <> 0 -> {un}transform_{F} c s x out = Ok (RErr (InvalidLength (zlen x)), out)) {AND}
  (zlen x mod {blk} = 0 -> zlen out < zlen x ->
     {un}transform_{F} c s x out = Ok (RErr (OutputBufferTooSmall (zlen x) (zlen out)), out)) {AND}
  (zlen x mod {blk} = 0 -> zlen x <= zlen out -> cpu_ok c -> {H(vl('c') if d=='t' else '', cond('c','x'))}
     exists out', {un}transform_{F} c s x out = Ok (ROk tt, out'))''',
            f'''  intros c s x out. repeat apply conj.
  - intros Hm. unfold {un}transform_{F}, checked. replace (zlen x mod {blk} =? 0) with false by lia. reflexivity.
  - intros Hm Ho. unfold {un}transform_{F}, checked. replace (zlen x mod {blk} =? 0) with true by lia.
    replace (zlen out <? zlen x) with true by lia. reflexivity.
  - intros Hm Ho K {Vl if d=='t' else ''} {Hd}. ''' +
            (f"eexists. apply {F}_slice; assumption." if d == 't' else
             f"destruct (un{F}_slice c s x out K {Hd} Hm Ho) as (y & E & _). eexists. exact E."))
    # ---- bijection
    dby = f"(c_debug c1 = true {chr(92)}/ c_debug c2 = true -> {flag} s = true -> y <> []) ->" if flag else ""
    add('C22', f"C22_{F}_onto",
        "C22: every byte string of valid length is the transform of something: untransforming and transforming again gives it back.",
        f'''forall (c1 c2 : cfg) (s : {st}) (y out1 out2 : list byte),
  cpu_ok c1 -> cpu_ok c2 -> {H(vl('c2'), dby)}
  zlen y mod {blk} = 0 -> zlen y <= zlen out1 -> zlen y <= zlen out2 ->
  exists x z, untransform_{F} c1 s y out1 = Ok (ROk tt, x) {AND}
    transform_{F} c2 s (firstn (List.length y) x) out2 = Ok (ROk tt, z) {AND}
    firstn (List.length y) z = y''',
        f'''  intros c1 c2 s y out1 out2 K1 K2 {Vl} {Hd} Hm H1 H2.
  destruct {uslice('c1','s','y','out1','K1','ltac:(intros; apply HD; auto)')} Hm H1) as (x & U & Lx & Ex).
  pose proof {tslice('c2','s','x','out2','K2','VL','ltac:(intros D E Q; refine (HD (or_intror D) E _); apply length_zero_iff_nil; rewrite <- Lx, Q; reflexivity)')}
    ltac:(unfold zlen in *; rewrite Lx; exact Hm) ltac:(unfold zlen in *; rewrite Lx; exact H2)) as T.
  do 2 eexists. split; [exact U|]. rewrite <- Lx, firstn_app, firstn_all, Nat.sub_diag, app_nil_r. split; [exact T|].
  rewrite Ex, Lx, firstn_app, firstn_all, Nat.sub_diag, app_nil_r. reflexivity.''')
    add('C22', f"C22_{F}_one_to_one",
        "C22: distinct textures never share a transformed form.",
        f'''forall (c1 c2 : cfg) (s : {st}) (x1 x2 out1 out2 y1 y2 : list byte),
  cpu_ok c1 -> cpu_ok c2 -> {H(vl('c1'), vl('c2'), cond('c1','x1'), cond('c2','x2'))}
  transform_{F} c1 s x1 out1 = Ok (ROk tt, y1) -> transform_{F} c2 s x2 out2 = Ok (ROk tt, y2) ->
  firstn (List.length x1) y1 = firstn (List.length x2) y2 -> x1 = x2''',
        f'''  intros c1 c2 s x1 x2 out1 out2 y1 y2 K1 K2 {'VL1 VL2' if F=='bc2' else ''} {'HD1 HD2' if flag else ''} T1 T2 E.
  destruct ({F}_fam {args}) as (sht & shu & FM).
  assert (A : forall c x out y, cpu_ok c -> {H(vl('c'), cond('c','x'))} transform_{F} c s x out = Ok (ROk tt, y) ->
     zlen x mod {blk} = 0 {AND} firstn (List.length x) y = {F}_layout {args} x).
  {{ intros c x out y K {Vl} {Hd} T.
    destruct (zlen x mod {blk} =? 0) eqn:Hm; [|unfold transform_{F}, checked in T; rewrite Hm in T; discriminate T].
    destruct (zlen out <? zlen x) eqn:Ho; [unfold transform_{F}, checked in T; rewrite Hm, Ho in T; discriminate T|].
    split; [lia|]. rewrite {F}_slice in T by first [assumption | lia]. injection T as <-.
    rewrite <- (fam_len _ _ _ _ _ _ FM ltac:(lia) x) by (unfold zlen in Hm; lia).
    rewrite firstn_app, firstn_all, Nat.sub_diag, app_nil_r. reflexivity. }}
  apply A in T1; [|assumption..]. apply A in T2; [|assumption..]. destruct T1 as [M1 F1], T2 as [M2 F2].
  rewrite F1, F2 in E. apply (fam_inj _ _ _ _ _ _ FM); [lia|unfold zlen in M1; lia| |exact E].
  apply (f_equal (@List.length byte)) in E. unfold {F}_layout in E.
  rewrite !(fam_len _ _ _ _ _ _ FM) in E by first [lia | unfold zlen in *; lia]. exact E.''')
    # ---- empty input
    rel = "c_debug c = false ->" if flag else ""
    add('C44', f"C44_{F}_empty" + ("_release_partial" if flag else ""),
        f"C44: an empty texture is accepted and nothing is written" + (", in release builds (the full claim, for every build, is refuted below)." if flag else ", in every build."),
        f'''forall (c : cfg) (s : {st}) (out : list byte), cpu_ok c -> {H(vl('c'), rel)}
  transform_{F} c s [] out = Ok (ROk tt, out) {AND} untransform_{F} c s [] out = Ok (ROk tt, out)''',
        f'''  intros c s out K {Vl} {'HR' if flag else ''}.
  assert (Ho : zlen (@nil byte) <= zlen out) by (pose proof (zlen_nonneg _ out); unfold zlen at 1; cbn [List.length]; lia).
  split.
  - rewrite {F}_slice; [unfold {F}_layout, {F}_fields, colour_fields; repeat match goal with |- context[if ?b then _ else _] => destruct b end; reflexivity|first [assumption | intros; congruence | reflexivity]..].
  - destruct {uslice('c','s','[]','out','K','ltac:(intros; congruence)')} eq_refl Ho) as (y & E & L & _).
    rewrite E. destruct y; [reflexivity|discriminate L].''')
    if flag:
        add('C44', f"C44_{F}_empty_debug_refuted",
            f"C44 fails in debug builds on x86: the checked transform panics on an empty texture, which it should accept.",
            f'''exists (c : cfg) (s : {st}) (out : list byte) why, cpu_ok c {AND} transform_{F} c s [] out = Panic why''',
            f'''  exists (Cfg true X86_64 false true true true true true true true x00), ({'Settings3 VNone true false' if three else 'Settings V1 true'}), [x00].
  eexists. split; [constructor; intros; reflexivity|]. vm_compute. reflexivity.''')
    # ---- permutation
    add('C46', f"C46_{F}_permutation",
        "C46: without decorrelation the transform only moves bytes around.",
        f'''forall (c : cfg) (s : {st}) (x out : list byte),
  cpu_ok c -> {H(vl('c'), cond('c','x'))} {mode} s = VNone -> zlen x mod {blk} = 0 -> zlen x <= zlen out ->
  exists y, transform_{F} c s x out = Ok (ROk tt, y) {AND} Permutation (firstn (List.length x) y) x''',
        f'''  intros c s x out K {Vl} {Hd} HV Hm Ho.
  destruct ({F}_fam {args}) as (sht & shu & FM).
  eexists. split; [apply {F}_slice; assumption|].
  pose proof (fam_div {blk} ltac:(lia) x ltac:(unfold zlen in Hm; lia)) as D.
  rewrite <- (fam_len _ _ _ _ _ _ FM ltac:(lia) x) by (unfold zlen in Hm; lia).
  fold ({F}_layout {args} x). rewrite firstn_app, firstn_all, Nat.sub_diag, app_nil_r.
  unfold {F}_layout. rewrite HV. rewrite lay_perm.
  - unfold blocks. rewrite concat_chunks by lia. reflexivity.
  - intros b Hb. apply {F}_none. apply (chunks_in {blk} (List.length x / {blk}) x); [lia|exact Hb].''')
    # sections that are only moved
    if F == 'bc1':
        sec = f"slice y (zlen x / 2) (zlen x / 2) = List.concat (map (raw 4 4) (blocks 8 x))"
    elif F == 'bc2':
        sec = (f"slice y 0 (zlen x / 2) = List.concat (map (raw 0 8) (blocks 16 x)) {AND}\n"
               f"    slice y (zlen x / 2 + zlen x / 4) (zlen x / 4) = List.concat (map (raw 12 4) (blocks 16 x))")
    else:
        sec = (f"slice y (zlen x / 8) (6 * (zlen x / 16)) = List.concat (map (raw 2 6) (blocks 16 x)) {AND}\n"
               f"    slice y (zlen x / 2 + zlen x / 4) (zlen x / 4) = List.concat (map (raw 12 4) (blocks 16 x)) {AND}\n"
               f"    Permutation (slice y 0 (zlen x / 8)) (List.concat (map (raw 0 2) (blocks 16 x)))")
    add('C46', f"C46_{F}_only_colours_change",
        "C46: whatever the settings, index (and alpha) bytes are only moved.",
        f'''forall (c : cfg) (s : {st}) (x out : list byte),
  cpu_ok c -> {H(vl('c'), cond('c','x'))} zlen x mod {blk} = 0 -> zlen x <= zlen out ->
  exists y, transform_{F} c s x out = Ok (ROk tt, y) {AND}
    {sec}''',
        f'''  intros c s x out K {Vl} {Hd} Hm Ho.
  eexists. split; [apply {F}_slice; assumption|].
  apply {F}_moved; unfold zlen in Hm; lia.''')
    # ---- locality
    add('C47', f"C47_{F}_transform_local",
        "C47: an output byte depends only on the block that owns it ([owner] of Spec/Layout.v; each block owns as many bytes as it has).",
        f'''forall (c : cfg) (s : {st}) (x x' out out' : list byte),
  cpu_ok c -> {H(vl('c'), cond('c','x'))} zlen x mod {blk} = 0 -> List.length x = List.length x' ->
  zlen x <= zlen out -> zlen x <= zlen out' ->
  let n := (List.length x / {blk})%nat in let ws := {F}_widths {wargs} in
  exists y y', transform_{F} c s x out = Ok (ROk tt, y) {AND} transform_{F} c s x' out' = Ok (ROk tt, y') {AND}
    (forall p, (p < List.length x)%nat ->
       nth (owner ws n p) (blocks {blk} x) [] = nth (owner ws n p) (blocks {blk} x') [] -> nth p y x00 = nth p y' x00) {AND}
    (forall i, (i < n)%nat -> List.length (filter (fun p => (owner ws n p =? i)%nat) (seq 0 (List.length x))) = {blk}%nat)''',
        f'''  intros c s x x' out out' K {Vl} {Hd} Hm HL Ho Ho' n ws.
  assert (Lz : zlen x = zlen x') by (unfold zlen; lia).
  destruct ({F}_fam {args}) as (sht & shu & FM).
  exists ({F}_layout {args} x ++ skipn (List.length x) out), ({F}_layout {args} x' ++ skipn (List.length x') out').
  split; [apply {F}_slice; assumption|]. split; [apply {F}_slice; {'[assumption|assumption|rewrite <- Lz; assumption..]' if F=='bc2' else '[assumption|intros D1 D2 Q; apply (HD D1 D2); subst x; destruct x; [reflexivity|discriminate]|rewrite <- Lz; assumption..]'.replace('subst x; destruct x; [reflexivity|discriminate]','apply length_zero_iff_nil; rewrite HL, Q; reflexivity')}|].
  assert (M : (List.length x mod {blk} = 0)%nat) by (unfold zlen in Hm; lia).
  split.
  - intros p Hp E. rewrite !app_nth1 by (unfold {F}_layout; rewrite (fam_len _ _ _ _ _ _ FM) by lia; lia).
    apply (fam_local _ _ _ _ _ _ FM ltac:(lia) ({F}_wpos {wargs}) x x' p); assumption.
  - intros i Hn. pose proof (fam_div {blk} ltac:(lia) x M) as D. pose proof (owner_count ws n i ({F}_wpos {wargs}) Hn) as Q.
    unfold ws in Q. rewrite (fam_sum _ _ _ _ _ _ FM) in Q. unfold ws, n in *. rewrite <- D in Q. exact Q.''')
    add('C47', f"C47_{F}_untransform_local",
        "C47, the other way: a restored block depends only on the bytes it owns.",
        f'''forall (c : cfg) (s : {st}) (x x' out out' : list byte) (i : nat),
  cpu_ok c -> {H(cond('c','x'))} zlen x mod {blk} = 0 -> List.length x = List.length x' ->
  zlen x <= zlen out -> zlen x <= zlen out' ->
  let n := (List.length x / {blk})%nat in let ws := {F}_widths {wargs} in
  (i < n)%nat -> (forall p, (p < List.length x)%nat -> owner ws n p = i -> nth p x x00 = nth p x' x00) ->
  exists y y', untransform_{F} c s x out = Ok (ROk tt, y) {AND} untransform_{F} c s x' out' = Ok (ROk tt, y') {AND}
    nth i (blocks {blk} (firstn (List.length x) y)) [] = nth i (blocks {blk} (firstn (List.length x) y')) []''',
        f'''  intros c s x x' out out' i K {Hd} Hm HL Ho Ho' n ws Hn E.
  assert (Lz : zlen x = zlen x') by (unfold zlen; lia).
  destruct ({F}_fam {args}) as (sht & shu & FM).
  destruct {uslice('c','s','x','out','K','HD')} Hm Ho) as (y & U & Ly & Ey).
  destruct {uslice('c','s',"x'","out'",'K',"ltac:(intros D1 D2 Q; apply (HD D1 D2); apply length_zero_iff_nil; rewrite HL, Q; reflexivity)")} ltac:(rewrite <- Lz; exact Hm) ltac:(rewrite <- Lz; exact Ho')) as (y' & U' & Ly' & Ey').
  do 2 eexists. split; [exact U|]. split; [exact U'|].
  rewrite <- Ly at 1. rewrite HL, <- Ly'. rewrite !firstn_app, !firstn_all, !Nat.sub_diag, !app_nil_r.
  apply (fam_unlocal _ _ _ _ _ _ FM ltac:(lia) ({F}_wpos {wargs})).
  - rewrite Ly. unfold zlen in Hm. lia.
  - lia.
  - rewrite Ly. exact Hn.
  - rewrite Ly. intros p Hp Hx. fold ({F}_layout {args} y) ({F}_layout {args} y').
    rewrite Ey, Ey'. apply E; assumption.''')
    # ---- never fails
    add('C48', f"C48_{F}_untransform_total",
        "C48: untransform accepts any bytes of valid length, in any settings.",
        f'''forall (c : cfg) (s : {st}) (x out : list byte),
  cpu_ok c -> {H(cond('c','x'))} zlen x mod {blk} = 0 -> zlen x <= zlen out ->
  exists y, untransform_{F} c s x out = Ok (ROk tt, y) {AND} zlen y = zlen out''',
        f'''  intros c s x out K {Hd} Hm Ho.
  destruct (un{F}_slice c s x out K {Hd} Hm Ho) as (y & E & L & _). eexists. split; [exact E|].
  unfold zlen in *. rewrite app_length, skipn_length. lia.''')
    return items

IDS = {'bc1': dict(rt='C01', cpu='C06', mem='C09', lay='C12'),
       'bc2': dict(rt='C02', cpu='C07', mem='C10', lay='C13'),
       'bc3': dict(rt='C03', cpu='C08', mem='C11', lay='C14')}

MOVED = '''(** Sections that are only moved. *)
Lemma cat_len : forall w off k x, (0 < k)%nat -> (List.length x mod k = 0)%nat -> (off + w <= k)%nat ->
  List.length (List.concat (map (raw off w) (blocks k x))) = (List.length x / k * w)%nat.
Proof.
  intros w off k x Hk Hm Hw. pose proof (fam_div k Hk x Hm) as D. rewrite (length_concat_const w).
  - rewrite map_length. unfold blocks. rewrite chunks_length. reflexivity.
  - intros b Hb. apply in_map_iff in Hb. destruct Hb as (q & <- & Hq).
    apply (chunks_in k (List.length x / k) x) in Hq; [|lia]. unfold raw. rewrite firstn_length, skipn_length. lia.
Qed.
Lemma col_len : forall w (f : field) k x, (forall b, List.length (f b) = w) -> 
  List.length (List.concat (map f (blocks k x))) = (List.length x / k * w)%nat.
Proof.
  intros w f k x H. rewrite (length_concat_const w).
  - rewrite map_length. unfold blocks. rewrite chunks_length. reflexivity.
  - intros b Hb. apply in_map_iff in Hb. destruct Hb as (q & <- & Hq). apply H.
Qed.
Lemma slice_mid : forall (p q r : list byte) off n, 0 <= off -> Z.of_nat (List.length p) = off -> Z.of_nat (List.length q) = n ->
  slice (p ++ q ++ r) off n = q.
Proof.
  intros p q r off n Ho Hp Hq. unfold slice. replace (Z.to_nat off) with (List.length p) by lia.
  rewrite skipn_app, skipn_all, Nat.sub_diag. cbn [skipn app]. replace (Z.to_nat n) with (List.length q) by lia.
  rewrite firstn_app, firstn_all, Nat.sub_diag. apply app_nil_r.
Qed.
Definition ccol (v : variant) (sp : bool) (off k : nat) (x : list byte) : list byte :=
  lay (colour_fields v sp off) (blocks k x).
Lemma ccol_len : forall v sp off k x, List.length (ccol v sp off k x) = (List.length x / k * 4)%nat.
Proof.
  intros v sp off k x. unfold ccol, lay, colour_fields. destruct sp; cbn [map List.concat]; rewrite ?app_length.
  - rewrite !(col_len 2) by reflexivity. cbn [List.length]. lia.
  - rewrite (col_len 4) by reflexivity. cbn [List.length]. lia.
Qed.
Lemma lay_app : forall fs gs bs, lay (fs ++ gs) bs = lay fs bs ++ lay gs bs.
Proof. intros. unfold lay. rewrite map_app, concat_app. reflexivity. Qed.
Lemma lay_one : forall f bs, lay [f] bs = List.concat (map f bs).
Proof. intros. unfold lay. cbn [map List.concat]. apply app_nil_r. Qed.

Lemma bc1_moved : forall v sp x r, (List.length x mod 8 = 0)%nat ->
  slice (bc1_layout v sp x ++ r) (zlen x / 2) (zlen x / 2) = List.concat (map (raw 4 4) (blocks 8 x)).
Proof.
  intros v sp x r Hm. unfold bc1_layout, bc1_fields. rewrite lay_app, lay_one, <- app_assoc.
  pose proof (ccol_len v sp 0 8 x) as L. pose proof (cat_len 4 4 8 x ltac:(lia) Hm ltac:(lia)) as L4. unfold ccol in L. unfold zlen.
  apply slice_mid; rewrite ?L, ?L4; lia.
Qed.
Lemma bc2_moved : forall v sp x r, (List.length x mod 16 = 0)%nat ->
  slice (bc2_layout v sp x ++ r) 0 (zlen x / 2) = List.concat (map (raw 0 8) (blocks 16 x)) /\\
  slice (bc2_layout v sp x ++ r) (zlen x / 2 + zlen x / 4) (zlen x / 4) = List.concat (map (raw 12 4) (blocks 16 x)).
Proof.
  intros v sp x r Hm. unfold bc2_layout, bc2_fields. rewrite !lay_app, !lay_one, <- !app_assoc.
  pose proof (ccol_len v sp 8 16 x) as L. pose proof (cat_len 4 12 16 x ltac:(lia) Hm ltac:(lia)) as L4.
  pose proof (cat_len 8 0 16 x ltac:(lia) Hm ltac:(lia)) as L8. unfold ccol in L. unfold zlen.
  split.
  - apply (slice_mid []); cbn [List.length]; rewrite ?L8; lia.
  - rewrite (app_assoc (List.concat (map (raw 0 8) _))). apply slice_mid; rewrite ?app_length, ?L, ?L4, ?L8; lia.
Qed.
Lemma perm_interleave : forall bs : list (list byte),
  Permutation (List.concat (map (raw 0 1) bs) ++ List.concat (map (raw 1 1) bs)) (List.concat (map (raw 0 2) bs)).
Proof.
  induction bs as [|b bs IH]; [constructor|]. cbn [map List.concat]. rewrite <- IH.
  transitivity ((raw 0 1 b ++ raw 1 1 b) ++ List.concat (map (raw 0 1) bs) ++ List.concat (map (raw 1 1) bs)).
  - rewrite <- !app_assoc. apply Permutation_app_head. rewrite !app_assoc. apply Permutation_app_tail. apply Permutation_app_comm.
  - apply Permutation_app_tail. unfold raw. destruct b as [|a [|c b]]; reflexivity.
Qed.
Lemma bc3_moved : forall v sa sp x r, (List.length x mod 16 = 0)%nat ->
  slice (bc3_layout v sa sp x ++ r) (zlen x / 8) (6 * (zlen x / 16)) = List.concat (map (raw 2 6) (blocks 16 x)) /\\
  slice (bc3_layout v sa sp x ++ r) (zlen x / 2 + zlen x / 4) (zlen x / 4) = List.concat (map (raw 12 4) (blocks 16 x)) /\\
  Permutation (slice (bc3_layout v sa sp x ++ r) 0 (zlen x / 8)) (List.concat (map (raw 0 2) (blocks 16 x))).
Proof.
  intros v sa sp x r Hm. unfold bc3_layout, bc3_fields. rewrite !lay_app, !lay_one, <- !app_assoc.
  set (al := lay (if sa then _ else _) _).
  pose proof (ccol_len v sp 8 16 x) as L. pose proof (cat_len 4 12 16 x ltac:(lia) Hm ltac:(lia)) as L4.
  pose proof (cat_len 6 2 16 x ltac:(lia) Hm ltac:(lia)) as L6.
  assert (P : Permutation al (List.concat (map (raw 0 2) (blocks 16 x)))).
  { subst al. destruct sa; [rewrite lay_cons|]; rewrite lay_one; [apply perm_interleave|reflexivity]. }
  assert (LA : List.length al = (List.length x / 16 * 2)%nat)
    by (rewrite (Permutation_length P); apply cat_len; first [lia|exact Hm]).
  unfold ccol in L. unfold zlen. repeat apply conj.
  - apply slice_mid; rewrite ?LA, ?L6; lia.
  - rewrite !app_assoc, <- (app_assoc _ _ r). apply slice_mid; rewrite ?app_length, ?L, ?L4, ?LA, ?L6; lia.
  - match goal with |- Permutation (slice (al ++ ?r) _ ?n) _ => pose proof (slice_mid [] al r 0 n) as S end.
    cbn [app] in S. rewrite S; [exact P|lia|reflexivity|rewrite LA; lia].
Qed.

'''

def main():
    proofs = ('''(** Proofs of the entry-point properties (generated by tools/gen_tprops.py; the
    statements are in Props/PBc1.v, PBc2.v and PBc3.v). *)
''' + HEAD + '''From Verif Require Import Proofs.KernelCheck Proofs.KernelLoop Proofs.KernelFun Proofs.Shapes Proofs.LayoutFacts Proofs.ShapeLayout
  Proofs.Families Proofs.TransformFacts Proofs.SliceFacts.
From Coq Require Import ZifyBool ZifyNat Permutation.

''' + MOVED)
    for fmt, blk in (('bc1', 8), ('bc2', 16), ('bc3', 16)):
        props = f'''(** {fmt.upper()} entry points: {', '.join(IDS[fmt].values())}, C15, C22, C44, C46, C47, C48. *)
''' + HEAD + '''From Verif Require Import Proofs.TransformProps.
From Coq Require Import Permutation.

'''
        for prop, name, comment, stmt, proof, ex in fmt_items(fmt, blk, IDS[fmt]):
            low = 'l' + name
            proofs += f"Lemma {low} : {stmt}.\nProof.\n{proof}\nQed.\n\n"
            props += f"(** {comment} *)\nTheorem {name} : {stmt}.\nProof. exact {low}. Qed.\nPrint Assumptions {name}.\n\n"
            if ex:
                props += f"(** {ex[0]} *)\nExample {name}_example : {ex[1]}.\nProof.\n{ex[2]}\nQed.\n\n"
        open(os.path.join(ROOT, 'Props', f'P{fmt.capitalize()}.v'), 'w').write(props)
    open(os.path.join(ROOT, 'Proofs', 'TransformProps.v'), 'w').write(proofs)

main()
