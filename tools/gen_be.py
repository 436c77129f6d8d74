#!/usr/bin/env python3
"""Write the big-endian versions of files that only differ in names:
Model/BeTransform.v, Model/BeFiles.v and the proofs about them.  Run from /verif."""
import re
T = 'rocq/theories/'

# Model/BeTransform.v
s = open(T + 'Model/Transform.v').read()
a = s.index('(** src/core/dxt-lossless-transform-bc1/src/transform/transform_with_settings.rs:31-72 *)'); b = s.index('(** ** Slice versions')
body = s[a:b]
body = re.sub(r'\b(bc[123]_\w+_[tu]_\w+) c\b', r'be_\1 c', body)
body = re.sub(r'Definition (transform|untransform)_', r'Definition be_\1_', body)
tail = s[s.index('(** src/core/dxt-lossless-transform-bc1/src/transform/safe/transform_with_settings.rs:88-117'):]
tail = re.sub(r'\b(transform|untransform)_(bc[123])\b', r'be_\1_\2', tail)
tail = re.sub(r'\b(transform|untransform)_(bc[123])_with_settings c', r'be_\1_\2_with_settings c', tail)
fams = [c + f for c in ('Bc1', 'Bc2', 'Bc3') for f in ('Std', 'Rec', 'Sc', 'Scr')] + ['Bc3Sa', 'Bc3Sar', 'Bc3Sac', 'Bc3Sacr']
gens = '\n  '.join(' '.join('Model.GenBe' + f for f in fams[i:i+4]) for i in range(0, 16, 4))
open(T + 'Model/BeTransform.v', 'w').write('''(** The entry points of Model/Transform.v compiled for a big-endian machine: the
    same code, calling the big-endian kernels (generated by tools/gen_be.py). *)
From Verif Require Import Base.Bytes Base.Res Model.Color565 Model.Ycc Model.Kernel Model.Transform
  %s.
Open Scope string_scope.
Open Scope list_scope.
Open Scope Z_scope.

%s(** ** Slice versions *)

%s''' % (gens, body, tail))

# Proofs/KBeBc1ScrU.v
s = open(T + 'Proofs/KBc1ScrU.v').read()
a = s.index('(** Two colour sections'); b = s.index('(** [SPEC] for all the blocks')
c = s.index('Lemma bc1_scr_u_generic_ok'); d = s.index('Lemma bc1_scr_u_untransform_x86_ok')
t = s[a:b] + s[c:d]
t = t.replace('negb (is_x86 c) && (128 <=? n)', '128 <=? n')
t = t.replace('sh_recorr_split', 'sh_be_recorr_split').replace('sh_bc1_scr_u', 'sh_be_bc1_scr_u')
t = re.sub(r'\bcol\b', 'bcol', t)
t = t.replace('bc1_std_u_untransform_with_separate_pointers_ok', 'be_bc1_std_u_untransform_with_separate_pointers_ok')
t = re.sub(r'\b(color_batch_recorrelate_ptr_split)', r'be_\1', t)
t = re.sub(r'\b(bc1_scr_u_generic)', r'be_\1', t)
t = t.replace('''(match v with VNone => color_batch_copy_split_body | _ => color_batch_recorr_split_body end)
    with color_batch_recorr_split_body by''', '''(be_body match v with VNone => color_batch_copy_split_body | _ => color_batch_recorr_split_body end)
    with (be_body color_batch_recorr_split_body) by''')
t += '''Lemma be_bc1_scr_u_untransform_ok : forall c v, ISPEC c v sh_be_bc1_scr_u (vok v) any_n
  (fun P n m => be_bc1_scr_u_untransform_with_split_colour_and_recorr c
                  (P (PI 0)) (P (PI 1)) (P (PI 2)) (P (PO 0)) n v m).
Proof.
  intros c v ins outs m0 n K Hv Hp W Hin.
  unfold be_bc1_scr_u_untransform_with_split_colour_and_recorr.
  pose proof (be_bc1_scr_u_generic_ok c v) as A1. use_ispec A1.
Qed.
'''
open(T + 'Proofs/KBeBc1ScrU.v', 'w').write('''(** Proofs/KBc1ScrU.v for a big-endian machine (generated by tools/gen_be.py). *)
From Verif Require Import Base.Bytes Base.Res Model.Color565 Model.Ycc Model.Kernel Model.ColorBatch Model.BigEndian
  Model.GenBeBc1Std Model.GenBeBc1Scr
  Proofs.LanesFacts Proofs.KernelCheck Proofs.KernelLoop Proofs.KernelFun Proofs.Shapes Proofs.BeShapes
  Proofs.KBc1ScrU Proofs.KBeBc1Std Proofs.KBeBc1Scr.
From Coq Require Import ZifyBool ZifyNat.

''' + t)

# Proofs/BeFamilies.v
s = open(T + 'Proofs/Families.v').read()
lem = re.findall(r'Lemma (fam_bc\d_\w+) : (.*?)\nProof\. (.*?) Qed\.', s)
out = ''
for n, st, pf in lem:
    st = re.sub(r'\b(bc[123])_fields', r'be_\1_fields', st)
    if 'forall v' in st: st = st.replace('sh_bc', 'sh_be_bc')
    out += 'Lemma be_%s : %s\nProof. %s Qed.\n' % (n, st, pf.replace('fam', 'be_fam'))
tac = s[s.index('Ltac col_simp'):s.index('Ltac break_widths')] + s[s.index('Ltac fam :='):s.index('Lemma fam_bc1_std')]
tac = tac.replace('col_simp', 'be_col_simp').replace('eval_bytes', 'be_eval_bytes').replace('Ltac fam', 'Ltac be_fam')
tac = tac.replace('bc1_fields bc2_fields bc3_fields colour_fields colour raw both byt col',
                  'be_bc1_fields be_bc2_fields be_bc3_fields be_colour_fields be_colour raw both byt bcol')
tac = tac.replace('Ltac be_col_simp :=\n  repeat first', 'Ltac be_col_simp :=\n  rewrite ?u16be_le;\n  repeat first')
open(T + 'Proofs/BeFamilies.v', 'w').write('''(** The block shapes of a big-endian machine are the fields of Spec/BigEndian.v
    (generated by tools/gen_be.py from Proofs/Families.v). *)
From Verif Require Import Base.Bytes Base.Res Model.Color565 Model.Ycc Model.Kernel
  Proofs.Color565Facts Proofs.KernelCheck Proofs.KernelLoop Proofs.KernelFun Proofs.Shapes Proofs.BeShapes Spec.YCoCg Spec.Layout
  Spec.BigEndian Proofs.LayoutFacts Proofs.ShapeLayout Proofs.Families.
From Coq Require Import ZifyBool ZifyNat.

Lemma u16be_le : forall a b, u16be a b = u16le b a.
Proof. intros. unfold u16be, u16le. lia. Qed.

''' + tac + out)

# Proofs/BeTransformFacts.v
s = open(T + 'Proofs/TransformFacts.v').read()
t = s[s.index('Section Bc1.'):]
t = re.sub(r'\b((?:un)?transform_bc[123]_(?:ptr|with_settings))', r'be_\1', t)
t = re.sub(r'\b(bc[123]_(?:fields|layout))', r'be_\1', t)
t = re.sub(r'\b(bc[123]_\w+_ok)\b', r'be_\1', t)
t = re.sub(r'\b(fam_bc[123]_\w+)', r'be_\1', t)
t = t.replace('vl_ok c = true -> ', '').replace('  intros VL.\n', '')
t = re.sub(r'\(HD : .*?\)\n  ', '', t)
t = t.replace('Hypotheses (K : cpu_ok c) ', 'Hypotheses (K : cpu_ok c)\n  ')
open(T + 'Proofs/BeTransformFacts.v', 'w').write('''(** Proofs/TransformFacts.v for a big-endian machine (generated by tools/gen_be.py). *)
From Verif Require Import Base.Bytes Base.Res Model.Color565 Model.Ycc Model.Kernel Model.Transform
  %s
  Model.BeTransform
  Proofs.KernelCheck Proofs.KernelLoop Proofs.KernelFun Proofs.Shapes Proofs.BeShapes Spec.YCoCg Spec.Layout Spec.BigEndian
  Proofs.LayoutFacts Proofs.ShapeLayout Proofs.Families Proofs.BeFamilies Proofs.KBc1ScrU Proofs.TransformFacts
  %s Proofs.KBeBc1ScrU.
From Coq Require Import ZifyBool ZifyNat.

''' % (gens, ' '.join('Proofs.KBe' + f for f in fams)) + t)

# Proofs/BeSliceFacts.v
s = open(T + 'Proofs/SliceFacts.v').read()
t = s[s.index('Lemma bc1_fam :'):s.index('Lemma bc1_wpos')] + s[s.index('Lemma bc1_none :'):s.index('(** ** Pointer calls')] + s[s.index('Lemma bc1_call :'):]
t = re.sub(r'\b((?:un)?bc[123]_(?:fam|none|call|slice))\b', r'be_\1', t)
t = re.sub(r'\bfam_bc', 'be_fam_bc', t)
t = re.sub(r'\b((?:un)?transform_bc[123]_(?:ptr|with_settings)|(?:un)?transform_bc[123])\b', r'be_\1', t)
t = re.sub(r'\b(bc[123]_(?:fields|layout))', r'be_\1', t)
t = t.replace('rewrite ?lo8_u16le, ?hi8_u16le', 'rewrite ?u16be_le, ?lo8_u16le, ?hi8_u16le')
t = re.sub(r' \(c_debug c = true -> [^()]*\) -> ', ' ', t)
t = re.sub(r' \(c_avx512bw c = true -> c_avx512vl c = true\) -> ', ' ', t)
t = t.replace(' K HD Hm', ' K Hm').replace(' K VL Hm', ' K Hm')
t = re.sub(r' K ltac:\(intros H1 H2; specialize \(HD H1 H2\);.*?lia\]\) Hm', ' K Hm', t)
t = re.sub(r' K ltac:\(intros H1 H2; specialize \(HD H2 H1\); lia\)', ' K', t)
t = t.replace(' VLB).', ').')
t = re.sub(r'  assert \(VLB.*\n', '', t)
open(T + 'Proofs/BeSliceFacts.v', 'w').write("""(** Proofs/SliceFacts.v for a big-endian machine (generated by tools/gen_be.py). *)
From Verif Require Import Base.Bytes Base.Res Model.Color565 Model.Ycc Model.Kernel Model.Transform Model.BeTransform
  Proofs.KernelCheck Proofs.KernelLoop Proofs.KernelFun Proofs.Shapes Proofs.BeShapes Spec.YCoCg Spec.Layout Spec.BigEndian
  Proofs.LayoutFacts Proofs.ShapeLayout Proofs.Families Proofs.BeFamilies Proofs.TransformFacts Proofs.SliceFacts Proofs.BeTransformFacts.
From Coq Require Import ZifyBool ZifyNat Permutation.

""" + t)

# Model/BeFiles.v
def cut(f, a, b=None):
    s = open(T + f).read()
    i = s.index(a)
    return s[i:s.index(b, i)] if b else s[i:]
NAMES = (r'(?:un)?transform_bc[123]_with_settings|(?:un)?transform_bc[123]|transform_bc[123]_auto_ptr|transform_bc[123]_auto|core_transform|core_untransform'
         r'|core_untransform_ptr|core_auto|manual_transform|manual_untransform|auto_transform|transform_slice_with_details|dispatch_transform'
         r'|dispatch_untransform|dds_transform_bundle|dds_untransform|dds_handler')
def be(t): return re.sub(r'\b(%s)\b' % NAMES, r'be_\1', t)
model = (cut('Model/Auto.v', '(** src/core/dxt-lossless-transform-bc1/src/transform/transform_auto.rs:200-270; the estimate', '(** src/core/dxt-lossless-transform-bc3/src/transform/transform_auto.rs:249-280')
  + cut('Model/Auto.v', '(** src/core/dxt-lossless-transform-bc3/src/transform/transform_auto.rs:196-294 *)', 'End Auto.'))
model = re.sub(r'\bsearch \(', 'search v e (', model).replace('estimate_at ', 'estimate_at e ').replace('estimate_bc3 ', 'estimate_bc3 c v e ')
model = ('Section Auto.\nContext {St Er : Type}.\nVariables (c : cfg) (v : env) (e : estimator St Er) (use_all_decorrelation_modes : bool).\n\n' + model + 'End Auto.\n'
  + '(** src/core/dxt-lossless-transform-bc1/src/transform/safe/transform_auto.rs:95-122 (BC2: 95-122, BC3: 95-121) *)\n' + cut('Model/Auto.v', 'Definition transform_bc1_auto {')
  + '\n' + cut('Model/Builders.v', '(** the slice functions and the pointer', '(** src/api')
  + cut('Model/Builders.v', '(** src/api/dxt-lossless-transform-bc1-api/src/transform/manual_transform_builder.rs:106-109', '(** src/api/dxt-lossless-transform-bc1-api/src/transform/auto_transform_builder.rs:15-20')
  + cut('Model/Builders.v', '(** src/api/dxt-lossless-transform-bc1-api/src/transform/auto_transform_builder.rs:123-141 *)')
  + '\nSection Bundle.\nContext {St Er : Type}.\nVariable show : Er -> string.\n'
  + cut('Model/Bundle.v', '(** src/api/dxt-lossless-transform-file-formats-api/src/bundle/bc1.rs:43-71', '(** src/api/dxt-lossless-transform-file-formats-api/src/bundle/mod.rs:37-49').replace('(b : builder)', '(b : builder St Er)').replace('printed e', 'printed show e')
  + cut('Model/Bundle.v', '(** src/api/dxt-lossless-transform-file-formats-api/src/bundle/mod.rs:125-169', 'Arguments builder').replace('(t : bundle)', '(t : bundle St Er)').replace('option builder', 'option (builder St Er)').replace('transform_slice_with_details k', 'transform_slice_with_details k')
  + cut('Model/Bundle.v', '(** src/api/dxt-lossless-transform-file-formats-api/src/handlers/dispatch.rs:39-100 *)') + '\n'
  + cut('Model/Dds.v', 'Section Handler.', 'End Handler.') + 'End Handler.\n\n'
  + cut('Model/Handlers.v', '(** The DDS handler as one', '(** ** Files'))
open(T + 'Model/BeFiles.v', 'w').write("""(** The automatic search, the builders, the dispatch and the DDS handler compiled
    for a big-endian machine: the same code as in Model/Auto.v, Builders.v,
    Bundle.v, Dds.v and Handlers.v, calling the big-endian entry points of
    Model/BeTransform.v (generated by tools/gen_be.py). Words are read from and
    written to files in little-endian order on every machine
    (src/api/dxt-lossless-transform-file-formats-api/src/embed/mod.rs:142-161;
    the DDS header is read through LittleEndianReader and its magic written with
    to_le_bytes,
    src/extensions/file-formats/dxt-lossless-transform-dds/src/dds/parse_dds.rs:86, 176, 240, 356, src/extensions/file-formats/dxt-lossless-transform-dds/src/handler/file_format_handler.rs:120). *)
From Verif Require Import Base.Bytes Base.Res Model.Color565 Model.Ycc Model.Kernel Model.Transform Model.Auto Model.Builders Model.Embed
  Model.Bundle Model.Dds Model.Handlers Model.BeTransform.
Open Scope string_scope.
Open Scope list_scope.
Open Scope Z_scope.

""" + be(model))

# Proofs/BeAutoProps.v
t = (cut('Proofs/AutoProps.v', 'Lemma bc1_AUTO') + cut('Proofs/AutoTheorems.v', 'Lemma bc1_log_same', 'Lemma lC16'))
t = t[:t.index('Lemma fwidth_alphas')] + t[t.index('Lemma bc3_AUTO'):]
t = be(t)
t = re.sub(r'\b(bc[123]_(?:AUTO|shown|layout|fields|fam|call|log_same)|colour_fields|fwidth_colours)\b', r'be_\1', t)
t = t.replace('(c_debug c = true -> x <> []) ->', '').replace('(c_avx512bw c = true -> c_avx512vl c = true) ->', '')
t = t.replace(' K HD', ' K').replace(' K VL', ' K').replace('|intros D _; apply nonempty_pos; auto', '').replace('|exact VL', '')
open(T + 'Proofs/BeAutoProps.v', 'w').write("""(** The automatic search on a big-endian machine (generated by tools/gen_be.py
    from Proofs/AutoProps.v). *)
From Verif Require Import Base.Bytes Base.Res Model.Color565 Model.Ycc Model.Kernel Model.Transform Model.Auto Model.BeTransform Model.BeFiles
  Spec.YCoCg Spec.Layout Spec.BigEndian Spec.Estimator Proofs.LayoutFacts Proofs.Families Proofs.BeFamilies Proofs.TransformFacts Proofs.SliceFacts
  Proofs.BeSliceFacts Spec.BeFiles Proofs.AutoFacts Proofs.AutoProps Proofs.AutoTheorems.
From Coq Require Import ZifyBool ZifyNat.

Lemma be_fwidth_colours : forall k v sp off, Forall2 (fwidth k) (be_colour_fields v sp off) (colour_widths sp).
Proof. intros k v [] off; repeat constructor; intros b _; reflexivity. Qed.

""" + t)


def lemmas(f, names):
    s = open(T + f).read(); out = ''
    for n in names:
        i = s.index('Lemma %s :' % n); out += s[i:s.index('Qed.', i) + 4] + '\n\n'
    return out
def prefix(t, names):
    for n in names: t = re.sub(r'\b%s\b' % n, 'be_' + n, t)
    return t
# Proofs/BeAutoTheorems.v
A = [n for n in re.findall(r'Lemma (lC\d+_bc\d_\w+)', open(T + 'Proofs/AutoTheorems.v').read()) if 'refuted' not in n and 'lossless' not in n]
t = be(lemmas('Proofs/AutoTheorems.v', A))
t = re.sub(r'\b(bc[123]_(?:AUTO|shown|layout|slice|log_same))\b', r'be_\1', t)
t = re.sub(r'\bcolour_fields\b', 'be_colour_fields', prefix(t, A))
t = t.replace('(c_debug c = true -> x <> []) ->', '').replace('(c_avx512bw c = true -> c_avx512vl c = true) ->', '')
t = t.replace(' K HD', ' K').replace(' K VL', ' K').replace('|intros D _; exact (HD D)', '').replace('|exact HD', '').replace('|exact VL', '')
for k in '123':
    s3 = '3' if k == '3' else ''
    al = '(split_alpha_endpoints s) ' if k == '3' else ''
    lay = 'be_bc%s_layout (decorrelation_mode%s s) %s(split_colour_endpoints%s s) x' % (k, s3, al, s3)
    sz = '\n  (forall st d n z st\', estimate_compressed_size e st d n = (ROk z, st\') -> 2 * z <= usize_max v) ->' if k == '3' else ''
    t += """Lemma be_lC21_bc%s_auto_lossless : forall (St Er : Type) (d1 d2 : bool) (j1 j2 : byte) (v : env) (e : estimator St Er) (all : bool) (x out out2 : list byte) (st st' : St) (s : settings%s) (y : list byte),%s
  be_transform_bc%s_auto (big_endian_cpu d1 j1) v e all x out st = Ok (ROk s, y, st') -> zlen x <= zlen out2 ->
  exists z, be_untransform_bc%s (big_endian_cpu d2 j2) s (firstn (List.length x) y) out2 = Ok (ROk tt, z) /\\ firstn (List.length x) z = x.
Proof.
  intros St Er d1 d2 j1 j2 v e all x out out2 st st' s y %sR H2.
  destruct (valid_auto _ _ _ _ _ _ _ _ R) as (Hm & Ho).
  destruct (AUTO_ok _ _ _ _ _ _ _ _ _ _ _ _ (be_bc%s_AUTO (big_endian_cpu d1 j1) v e all x out (big_endian_ok d1 j1) %sHm Ho)
    ltac:(apply order%s_in; unfold candidate; auto) R) as (I & ->).
  pose proof (be_bc%s_slice (big_endian_cpu d1 j1) s x out (big_endian_ok d1 j1) Hm Ho) as TT.
  destruct (lC65_bc%s_lossless d1 d2 j1 j2 s x out out2 Hm Ho H2) as (y & z & T' & U & E).
  rewrite TT in T'. injection T' as <-. exists z. split; assumption.
Qed.

""" % (k, s3, sz, k, k, 'SZ ' if k == '3' else '', k, 'SZ ' if k == '3' else '', '3' if k == '3' else '1', k, k)
open(T + 'Proofs/BeAutoTheorems.v', 'w').write("""(** Properties of the automatic searches on a big-endian machine (generated by
    tools/gen_be.py from Proofs/AutoTheorems.v). *)
From Verif Require Import Base.Bytes Base.Res Model.Color565 Model.Kernel Model.Transform Model.Auto Model.BigEndian Model.BeTransform Model.BeFiles
  Spec.YCoCg Spec.Layout Spec.BigEndian Spec.Estimator Spec.BeFiles
  Proofs.SliceFacts Proofs.BeSliceFacts Proofs.TransformProps Proofs.AutoFacts Proofs.AutoProps Proofs.AutoTheorems Proofs.BeAutoProps
  Proofs.BigEndianFacts Proofs.BigEndianProps.
From Coq Require Import ZifyBool ZifyNat.

""" + t)

# Proofs/BeBundleFacts.v, Proofs/BeDdsHandler.v
B = ['layout_len', 'layout_inj', 'core_transform_ok', 'core_untransform_ok', 'core_transform_valid', 'auto_transform_ok', 'core_auto_ok', 'slice_details_ok',
     'dispatch_ok', 'undispatch_ok', 'round_layout', 'dispatch_round_trip', 'dispatch_manual', 'dispatch_auto']
t = lemmas('Proofs/BundleFacts.v', B)
def specs(t):
    t = re.sub(r'\b(texture_layout|(?:un)?bc[123]_(?:AUTO|layout|fam|call|slice))\b', r'be_\1', be(t))
    return re.sub(r'\(c_debug c[12]? = true( \\/ c_debug c2 = true)? -> (\w+ <> \[\]|0 < i_data_length i)\) ->', '', t).replace('supported c', 'cpu_ok c')
t = prefix(specs(t), B).replace('(K & VL) HD', 'K').replace('K HD', 'K').replace('K VL', 'K')
t = re.sub(r'  assert \(HL : .*\n', '', t).replace(' K ltac:(auto) Hm', ' K Hm').replace('K1 K2 HD H', 'K1 K2 H').replace('K1 ltac:(auto) H', 'K1 H')
t = t.replace("  - intros D Q. apply (HD D). apply length_zero_iff_nil. rewrite <- LL, Q. reflexivity.\n", '')
open(T + 'Proofs/BeBundleFacts.v', 'w').write("""(** Builders and dispatch on a big-endian machine (generated by tools/gen_be.py
    from Proofs/BundleFacts.v). *)
From Verif Require Import Base.Bytes Base.Res Model.Color565 Model.Ycc Model.Kernel Model.Transform Model.Auto Model.Builders Model.Embed Model.Bundle
  Model.BeTransform Model.BeFiles.
From Verif Require Import Spec.Layout Spec.Estimator Spec.Files Spec.BigEndian Spec.BeFiles Proofs.LayoutFacts Proofs.Families Proofs.TransformFacts Proofs.SliceFacts
  Proofs.BeSliceFacts Proofs.TransformProps Proofs.AutoProps Proofs.AutoTheorems Proofs.BeAutoProps Proofs.EmbedFacts Spec.Header Proofs.BundleFacts.
From Coq Require Import ZifyBool.

""" + t)
D = ['transform_pieces', 'untransform_pieces', 'transform_sizes', 'transform_success', 'dds_round_trip', 'transformed_word', 'transform_parses', 'undispatch_magic',
     'undispatch_magic_fails', 'plain_not_untransformed', 'undispatch_total', 'untransform_total', 'dispatch_total', 'transform_total', 'untransform_safe', 'transform_safe']
head = 'Section Handler.\nContext {St Er : Type}.\nVariable show : Er -> string.\nVariables (c : cfg) (v : env).\n\n'
t = head + lemmas('Proofs/DdsHandler.v', D[:2]) + 'End Handler.\n\n' + lemmas('Proofs/DdsHandler.v', D[2:])
t = prefix(specs(t), D + B).replace('K P HD HU', 'K P HU').replace('K1 K2 P HD HF', 'K1 K2 P HF').replace('K1 P ltac:(auto) HU1', 'K1 P HU1')
t = re.sub(r'K ltac:\(intros Q; specialize.*?lia\) D\)', 'K D)', t)
t = t.replace('[|exact K2| |rewrite LT', '[|exact K2|rewrite LT').replace('  2:{ intros D TN. rewrite TN, zlen_nil in LT. specialize (HD (or_intror D)). lia. }\n', '')
t = re.sub(r' /\\ forall i, parse_dds(_ignore_magic)? true x = Ok \(Some i\) -> 0 < i_data_length i\) ->', ') ->', t)
t = re.sub(r'\n  \(c_debug c = true -> forall i, parse_dds(_ignore_magic)? true x = Ok \(Some i\) -> 0 < i_data_length i\) ->', '', t)
t = t.replace('K HU HD. unfold', 'K HU. unfold').replace('y out K HD H.', 'y out K H.').replace('out st K HD H.', 'out st K H.').replace('K HD ltac', 'K ltac')
t = re.sub(r'    \{ intros D TN\. destruct \(HD D\).*\n    \{ lia\. \}\n', '    { lia. }\n', t)
t = re.sub(r'    assert \(HN : .*\n.*\n', '', t).replace(' K HN', ' K')
t = t.replace('as (r & o & E & _); [|lia|].', 'as (r & o & E & _); [lia|].').replace("as (r & o & st' & E & _); [|lia|].", "as (r & o & st' & E & _); [lia|].")
t = re.sub(r'  \{ intros D ->\. rewrite D in P.*\n', '', t)
t = t.replace('destruct K as (K & VL). destruct k;', 'destruct k;').replace('st K VL ltac', 'st K ltac').replace('(lC19_', '(be_lC19_')
open(T + 'Proofs/BeDdsHandler.v', 'w').write("""(** The DDS handler on a big-endian machine (generated by tools/gen_be.py from
    Proofs/DdsHandler.v). *)
From Verif Require Import Base.Bytes Base.Res Model.Color565 Model.Kernel Model.Transform Model.Auto Model.Builders Model.Embed Model.Bundle Model.Dds
  Model.BeTransform Model.BeFiles.
From Verif Require Import Spec.Layout Spec.Estimator Spec.Header Spec.Files Spec.Dds Spec.BeFiles Proofs.SliceFacts Proofs.AutoTheorems Proofs.EmbedFacts
  Proofs.BeAutoTheorems Proofs.BundleFacts Proofs.BeBundleFacts Proofs.DdsFacts Proofs.DdsHandler.
From Coq Require Import ZifyBool.

""" + t)

# Proofs/BeDdsRestore.v
t = prefix(specs(lemmas('Proofs/DdsRestore.v', ['restore'])), D + B + ['restore']).replace('K P HD HF', 'K P HF').replace('LL, HD |- *', 'LL |- *')
t = re.sub(r'\n  \(c_debug c = true -> 0 < i_data_length i\) ->', '\n ', t)
t = re.sub(r'  \{ intros D LN.*\n', '', t)
open(T + 'Proofs/BeDdsRestore.v', 'w').write("""(** Proofs/DdsRestore.v for a big-endian machine (generated by tools/gen_be.py). *)
From Verif Require Import Base.Bytes Base.Res Model.Color565 Model.Kernel Model.Transform Model.Auto Model.Builders Model.Embed Model.Bundle Model.Dds
  Model.BeTransform Model.BeFiles.
From Verif Require Import Spec.Layout Spec.Estimator Spec.Header Spec.Files Spec.Dds Spec.BeFiles Proofs.SliceFacts Proofs.AutoTheorems Proofs.EmbedFacts
  Proofs.BundleFacts Proofs.BeBundleFacts Proofs.DdsFacts Proofs.DdsHandler Proofs.BeDdsHandler.
From Coq Require Import ZifyBool.

""" + t)
