#!/usr/bin/env python3
"""Write the big-endian versions of Model/NormTransform.v and of the proofs about
it, which only differ in names.  Run from /verif."""
import re
T = 'rocq/theories/'

NAMES = '''transform_at transform_separate_at split_at to_colours of_colours decorrelate_at decorrelate_slice_at
transform_bc1_with_normalize_blocks test_variant test_order test_norms transform_bc1_auto_with_normalization
transform_bc1_auto_ptr transform_bc1_auto bc1_std_t_transform bc1_std_t_transform_with_separate_pointers
common_transforms_split_565_color_endpoints_split_color_endpoints
separate_ok bc1_std_t_transform_with_separate_pointers_ok transform_at_ok decor to_colours_len of_colours_len decor_len decor_app
colour_decor decor_one decor_two decor_four colour_part colour_part_plain colour_part_split layout_parts decorrelate_at_ok
decorrelate_slice_at_ok split_at_ok split_run tail_plain tail_split with_normalize_ok bc1_call transform_bc1_with_settings
bc1_layout bc1_fields colour_fields colour
tries tries_app tries_in colour_part_len fwidth_colours test_variant_ok test_order_ok test_norms_ok decor_none layout_half one_split
auto_some bc1_layout_len bc1_fam auto_ptr_at auto_none bc1_shown tries_pure layout_unique restored untransform_bc1 unbc1_slice
norm_even lC51 lC51_none bc1_slice transform_bc1 norm_odd_ok norm_odd_ub auto_even lC51_odd lC52_odd lC52_total lC52_best lC52_plain
bc1_AUTO lC52_none_refuted'''.split()
NAMES = sorted(set(NAMES), key=len, reverse=True)
RX = re.compile(r"(?<![\w.'])(" + '|'.join(NAMES) + r")(?![\w'])")
def be(t):
    t = RX.sub(r'be_\1', t)
    t = t.replace('split_len_ok c (Z.of_nat n)', '(c_debug c = true -> 0 < Z.of_nat n)').replace('split_len_ok c (len / 8)', '(c_debug c = true -> 0 < len / 8)')
    t = t.replace('splittable c (len / 8)', '(c_debug c = true -> 0 < len / 8)')
    t = t.replace('ltac:(intros _ E; discriminate E) ', '')
    t = re.sub(r'\bu16le_bound\b', 'u16be_bound', t)
    return re.sub(r'\bu16le\b', 'u16be', t)
def between(s, a, b):
    i = s.index(a)
    return s[i:s.index(b, i)] if b else s[i:]

# Model
s = open(T + 'Model/NormTransform.v').read()
m1 = between(s, '(** src/core/dxt-lossless-transform-bc1/src/transform/standard/transform/mod.rs transform *)', '(** [Color565::decorrelate_ycocg_r_ptr(p, p, n, v)]')
m2 = between(s, 'Definition decorrelate_at', '(** What the loop keeps')
m3 = between(s, '(** src/core/dxt-lossless-transform-bc1/src/experimental/normalize_blocks/transform.rs:336-408', '(** A new allocation')
m4 = between(s, '(** src/core/dxt-lossless-transform-bc1/src/experimental/normalize_blocks/transform.rs:222-332. The', 'Arguments Search')
m = be(m1) + '(** [Color565::decorrelate_ycocg_r_ptr(p, p, n, v)], src/core/dxt-lossless-transform-common/src/color_565/decorrelate_batch_ptr.rs:336-359 *)\n' + be(m2) + be(m3) + be(m4)
m = m.replace('u16be a b :: be_to_colours l', '(256 * b2z a + b2z b) :: be_to_colours l').replace('[lo8 v; hi8 v]', '[hi8 v; lo8 v]')
m = m.replace('(** Bytes as an array of colours.', '(** Bytes as an array of colours: native [u16]s.')
m = m.replace('grow m', 'grow fresh m').replace('(s : search_state)', '(s : search_state (St := St))').replace('res search_state', 'res (search_state (St := St))')
open(T + 'Model/BeNormTransform.v', 'w').write('''(** BC1 transform with block normalisation compiled for a big-endian machine: the
    code of Model/NormTransform.v, calling the big-endian kernels and seeing the
    two bytes of a colour as a big-endian number (generated by
    tools/gen_be_norm.py). The normaliser itself (Model/Normalize.v) reads and
    writes colours through from_le_bytes and to_le_bytes and is the same
    (src/core/dxt-lossless-transform-bc1/src/util/bc1_decode.rs:44-46,
    src/core/dxt-lossless-transform-bc1/src/experimental/normalize_blocks/normalize.rs:223, 333). *)
From Verif Require Import Base.Bytes Base.Res Model.Color565 Model.Ycc Model.Kernel Model.GenBeBc1Std Model.GenBeSplit565
  Model.ColorSlices Model.Transform Model.Auto Model.BeTransform Model.BeFiles Model.Decode Model.Normalize Model.NormTransform.
Open Scope string_scope.
Open Scope list_scope.
Open Scope Z_scope.

''' + m)

IMP = '''From Verif Require Import Base.Bytes Base.Res Model.Color565 Model.Ycc Model.Kernel Model.GenBeBc1Std Model.GenBeSplit565
  Model.ColorSlices Model.Transform Model.Auto Model.Decode Model.Normalize Model.NormTransform Model.BeTransform Model.BeFiles Model.BeNormTransform
  Spec.YCoCg Spec.Layout Spec.BigEndian Spec.Pixels Spec.Normalize Spec.Estimator Spec.NormTransform Spec.BeFiles
  Proofs.KernelCheck Proofs.KernelLoop Proofs.KernelFun Proofs.Shapes Proofs.LayoutFacts Proofs.ShapeLayout Proofs.KBc1ScrU Proofs.KBeBc1Std
  Proofs.Families Proofs.BeFamilies Proofs.TransformFacts Proofs.SliceFacts Proofs.BeTransformFacts Proofs.BeSliceFacts Proofs.BigEndianFacts Proofs.ColorSlicesFacts
  Proofs.AutoFacts Proofs.AutoProps Proofs.AutoTheorems Proofs.BeAutoProps
  Proofs.NormLoop Proofs.NormPixels Proofs.NormalizeFacts Proofs.NormSplit Proofs.NormDerived Proofs.NormTransformFacts Proofs.NormAuto Proofs.NormAutoTheorems%s.
From Coq Require Import ZifyBool ZifyNat.

'''
# Proofs/BeNormTransformFacts.v
s = open(T + 'Proofs/NormTransformFacts.v').read()
p = between(s, 'Lemma separate_ok', '(** ** The other steps *)') + between(s, 'Lemma transform_at_ok', 'Lemma even_ind') + \
    between(s, 'Lemma to_colours_len', 'Lemma blocks_of_len') + between(s, 'Lemma colour_part_plain', 'Lemma map_blocks4') + \
    between(s, 'Lemma colour_part_split', '(** ** Normalised textures *)') + between(s, 'Lemma tail_plain', 'Lemma two_slices') + between(s, 'Lemma with_normalize_ok', None)
p = be(p).replace('[lo8 (decorrelate v (u16be a b)); hi8 (decorrelate v (u16be a b))]', '[hi8 (decorrelate v (u16be a b)); lo8 (decorrelate v (u16be a b))]')
open(T + 'Proofs/BeNormTransformFacts.v', 'w').write('''(** Proofs/NormTransformFacts.v for a big-endian machine (generated by tools/gen_be_norm.py). *)
''' + IMP % '' + '''Lemma u16be_bound : forall a b, 0 <= u16be a b < 65536.
Proof. intros a b. unfold u16be. pose proof (b2z_bound a). pose proof (b2z_bound b). lia. Qed.
Lemma hi8_u16be : forall a b, hi8 (u16be a b) = a.
Proof. intros a b. replace (u16be a b) with (u16le b a) by (unfold u16be, u16le; lia). apply hi8_u16le. Qed.
Lemma lo8_u16be : forall a b, lo8 (u16be a b) = b.
Proof. intros a b. replace (u16be a b) with (u16le b a) by (unfold u16be, u16le; lia). apply lo8_u16le. Qed.

''' + p.replace('rewrite IH, lo8_u16le, hi8_u16le', 'change (256 * b2z a + b2z b) with (u16be a b). rewrite IH, hi8_u16be, lo8_u16be'))

# Proofs/BeNormAuto.v
s = open(T + 'Proofs/NormAuto.v').read()
p = between(s, 'Section Tries.', 'Definition cands') + between(s, 'Lemma test_norms_ok', 'Lemma cands_in') + between(s, 'Lemma decor_none', 'Lemma oc1 ') + between(s, 'Lemma auto_some', None)
p = be(p).replace('rewrite IH, lo8_u16le, hi8_u16le', 'change (256 * b2z a + b2z b) with (u16be a b). rewrite IH, hi8_u16be, lo8_u16be').replace('all_modes_at m0', 'all_modes_at c fresh m0').replace('grow_slice', '(grow_slice fresh)').replace('grow_len', '(grow_len fresh)').replace('keeps_grow', '(keeps_grow fresh)')
p = p.replace('  { intros _. exact SL. }\n', '').replace('((grow_slice fresh) m5', '(grow_slice fresh m5')
open(T + 'Proofs/BeNormAuto.v', 'w').write('''(** Proofs/NormAuto.v for a big-endian machine (generated by tools/gen_be_norm.py). *)
''' + IMP % ' Proofs.BeNormTransformFacts' + p)

# Proofs/BeNormAutoTheorems.v
s = open(T + 'Proofs/NormAutoTheorems.v').read()
p = between(s, 'Lemma bc1_layout_len', 'Lemma kept_functional') + between(s, 'Lemma tries_pure', 'Lemma normalised_picture') + between(s, 'Lemma restored', '(** ** C52 *)') + \
    between(s, 'Lemma norm_odd_ok', 'Lemma lC51_short_refuted') + between(s, 'Lemma lC52_none_refuted', 'Theorem all_combinations_complete')
p = be(p)
for a, b in [
    ('(c_debug c = true -> d_split d = true -> 0 < zlen y) -> ', ''), ('intros c d y out2 K HD M L.', 'intros c d y out2 K M L.'),
    ('  { intros D S N. specialize (HD D S). rewrite N in LL. unfold zlen in *. cbn [List.length] in LL. lia. }\n', ''),
    ('(c_debug c2 = true -> d_split d = true -> 0 < len) -> ', ''), ('EV SL HD L2', 'EV SL L2'),
    ('[|exact K2|intros D SP; specialize (HD D SP); lia|lia|lia]', '[|exact K2|lia|lia]'),
    ('|exact K2| |lia|lia].\n  intros D SP Z. specialize (HD D SP). rewrite Z in Hx. unfold zlen in Hx. cbn [List.length] in Hx. lia.\n', '|exact K2|lia|lia].\n'),
    ('cpu_ok c -> (c_debug c = true -> 0 < len) -> len mod 8 = 0 -> within', 'cpu_ok c -> len mod 8 = 0 -> within'),
    ('intros m inp out len st K HD M [I1', 'intros m inp out len st K M [I1'), ('; intros D _; apply HD; exact D.', '.'),
    ('intros even m0 inp out len st K HD M WI', 'intros even m0 inp out len st K M WI'), ('len st1 K HD M ltac', 'len st1 K M ltac'),
    ('out + len <= inp -> (c_debug c = true -> 0 < len) ->\n  ~', 'out + len <= inp ->\n  ~'),
    ('  (c_debug c = true -> 0 < len) -> (normalisable', '  (normalisable'),
    ('K M WI WO A HD N AL RUN', 'K M WI WO A N AL RUN'), ('K M WI WO A HD SL', 'K M WI WO A SL'), ('len st K HD M WI WO A N)', 'len st K M WI WO A N)'), ('len tt K HD M WI WO A N)', 'len tt K M WI WO A N)'),
    ('  assert (ND : c_debug c = true -> slice m inp len <> []) by (intros D Z; specialize (HD D); rewrite Z in Hx; unfold zlen in Hx; cbn [List.length] in Hx; lia).\n', ''),
    ('split; [split; [intros _; reflexivity|intros H; discriminate H]|]', 'split; [intros _; reflexivity|]'),
    ('(slice m out len) K ND ltac', '(slice m out len) K ltac')]:
    assert a in p, a
    p = p.replace(a, b)
open(T + 'Proofs/BeNormAutoTheorems.v', 'w').write('''(** Proofs/NormAutoTheorems.v for a big-endian machine (generated by tools/gen_be_norm.py). *)
''' + IMP % ' Proofs.BeNormTransformFacts Proofs.BeNormAuto' + p)
