import sys
L=[];P=[]
def fmt(N):
    k={1:8,2:16,3:16}[N]
    if N<3: args='(decorrelation_mode s) (split_colour_endpoints s)'; st='settings'; mode='decorrelation_mode s'
    else: args='(decorrelation_mode3 s) (split_alpha_endpoints s) (split_colour_endpoints3 s)'; st='settings3'; mode='decorrelation_mode3 s'
    return k,args,st,mode
import re
src=open('Model/Transform.v').read()
H='''(** Proofs of C65 and C66 (generated by tools/gen_pbe.py; the statements are in Props/PBigEndian.v). *)
From Verif Require Import Base.Bytes Base.Res Model.Color565 Model.Ycc Model.Kernel Model.Transform Model.BigEndian Model.BeTransform
  Spec.YCoCg Spec.Layout Spec.BigEndian
  Proofs.KernelCheck Proofs.KernelLoop Proofs.KernelFun Proofs.Shapes Proofs.BeShapes
  Proofs.LayoutFacts Proofs.ShapeLayout Proofs.Families Proofs.BeFamilies Proofs.TransformFacts Proofs.SliceFacts
  Proofs.BeTransformFacts Proofs.BeSliceFacts Proofs.BigEndianFacts.
From Coq Require Import ZifyBool ZifyNat.

Lemma fam_inj2 : forall k fs sht shu v ws x x', FAM v sht shu k fs ws -> (0 < k)%nat ->
  (List.length x mod k = 0)%nat -> List.length x = List.length x' -> lay fs (blocks k x) = lay fs (blocks k x') -> x = x'.
Proof. intros. eapply fam_inj; eassumption. Qed.

Lemma be_colour_none : forall off b, be_colour VNone off b = colour VNone off b.
Proof. intros. unfold be_colour, colour, ycocg. rewrite u16be_le, ?lo8_u16le, ?hi8_u16le. reflexivity. Qed.
Lemma lay_ext : forall fs gs bs, Forall2 (fun f g : field => forall b, f b = g b) fs gs -> lay fs bs = lay gs bs.
Proof.
  intros fs gs bs H. unfold lay. f_equal. induction H as [|f g fs gs E H IH]; [reflexivity|]. cbn [map]. f_equal; [|exact IH].
  f_equal. apply map_ext. exact E.
Qed.
Ltac same_fields := repeat first [apply Forall2_nil | apply Forall2_cons]; intros; unfold both; rewrite ?be_colour_none; reflexivity.
Lemma app_take : forall (l r : list byte) n, n = List.length l -> firstn n (l ++ r) = l.
Proof. intros l r n ->. rewrite firstn_app, firstn_all, Nat.sub_diag. apply app_nil_r. Qed.
'''
open_ex={1:'map (fun i => lo8 (i * 37 + 11)) (zseq 0 8)',2:'map (fun i => lo8 (i * 37 + 11)) (zseq 0 16)',3:'map (fun i => lo8 (i * 37 + 11)) (zseq 0 16)'}
PH='''(** C65, C66: big-endian machines.
    [be_transform_bcN] and [be_untransform_bcN] are the entry points compiled for
    a big-endian machine (Model/BeTransform.v). *)
From Verif Require Import Base.Bytes Base.Res Model.Color565 Model.Kernel Model.Transform Model.BigEndian Model.BeTransform
  Model.GenBeSplit565 Spec.YCoCg Spec.Layout Spec.BigEndian Proofs.BigEndianFacts Proofs.BigEndianProps.
Open Scope string_scope.
Open Scope list_scope.
Open Scope Z_scope.

(** ** The machine *)

(** A load of 1, 2, 4 or 8 bytes fills the register (which holds the least
    significant byte first) with the bytes of memory in reverse order; other
    registers and memory stay as they are. *)
Theorem C65_load : forall junk vt d p off n r ps m q l, width n -> scratch d = false ->
  look ps p = Some q -> mload m (padd q off) n = Ok l -> zlen l = n ->
  exists r', exec junk vt (be_body [ILoad d p off n]) (St r ps m) = Ok (St r' ps m) /\\
    look r' d = Some (rev l) /\\ forall x, scratch x = false -> x <> d -> look r' x = look r x.
Proof. exact be_load_run. Qed.
Print Assumptions C65_load.

(** A store writes the bytes of the register in reverse order. *)
Theorem C65_store : forall junk vt p off n s r ps m q l m', width n -> scratch s = false ->
  look ps p = Some q -> look r s = Some l -> zlen l = n -> mstore m (padd q off) (rev l) = Ok m' ->
  exists r', exec junk vt (be_body [IStore p off n s]) (St r ps m) = Ok (St r' ps m') /\\
    forall x, scratch x = false -> look r' x = look r x.
Proof. exact be_store_run. Qed.
Print Assumptions C65_store.

Example C65_load_case : exec x00 0 (be_body [ILoad "a" "p" 1 4]) (St [] [("p", Ptr BIn 0)] (Mem [x01; x02; x03; x04; x05] [] [])) =
  exec x00 0 [ILoad "a" "p" 1 4] (St [] [("p", Ptr BIn 0)] (Mem [x01; x02; x03; x04; x05] [] [])) -> False.
Proof. vm_compute. discriminate. Qed.

(** ** C65: the transforms on a big-endian machine *)
'''
for N in (1,2,3):
    k,args,st,mode=fmt(N)
    st = 'settings' if N<3 else re.search(r'be_transform_bc3 \(c : cfg\) \(s : (\w+)\)',open('Model/BeTransform.v').read()).group(1)
    lay=f'be_bc{N}_layout {args}'; ley=f'bc{N}_layout {args}'; fam=f'be_bc{N}_fam {args}'; lfam=f'bc{N}_fam {args}'
    vl = '' 
    if N==1: cond='(c_debug c = true -> split_colour_endpoints s = true -> x <> [])'; ucond=cond
    elif N==2: cond='(c_avx512bw c = true -> c_avx512vl c = true)'; ucond=cond
    else: cond='(c_debug c = true -> split_alpha_endpoints s = true -> x <> [])'; ucond=cond
    def th(name,stmt,proof,com,ex=''):
        L.append(f'Lemma l{name} : {stmt}\nProof.\n{proof}\nQed.\n')
        P.append(f'(** {com} *)\nTheorem {name} : {stmt}\nProof. exact l{name}. Qed.\nPrint Assumptions {name}.\n{ex}')
    th(f'C65_bc{N}_lossless',f'''forall (d1 d2 : bool) (j1 j2 : byte) (s : {st}) (x out1 out2 : list byte),
  zlen x mod {k} = 0 -> zlen x <= zlen out1 -> zlen x <= zlen out2 ->
  exists y z, be_transform_bc{N} (big_endian_cpu d1 j1) s x out1 = Ok (ROk tt, y) /\\
    be_untransform_bc{N} (big_endian_cpu d2 j2) s (firstn (List.length x) y) out2 = Ok (ROk tt, z) /\\
    firstn (List.length x) z = x.''',f'''  intros d1 d2 j1 j2 s x out1 out2 Hm H1 H2.
  destruct ({fam}) as (sht & shu & FM).
  assert (LL : List.length ({lay} x) = List.length x)
    by (apply (fam_len _ _ _ _ _ _ FM); unfold zlen in Hm; lia).
  pose proof (be_bc{N}_slice (big_endian_cpu d1 j1) s x out1 (big_endian_ok d1 j1) Hm H1) as T.
  destruct (be_unbc{N}_slice (big_endian_cpu d2 j2) s ({lay} x) out2 (big_endian_ok d2 j2)
    ltac:(unfold zlen in *; rewrite LL; exact Hm) ltac:(unfold zlen in *; rewrite LL; exact H2)) as (y & U & Ly & Ey).
  do 2 eexists. split; [exact T|]. rewrite (app_take ({lay} x)) by (symmetry; exact LL). split; [exact U|].
  rewrite (app_take y) by (rewrite Ly, LL; reflexivity).
  apply (fam_inj2 _ _ _ _ _ _ _ _ FM); [lia|rewrite Ly, LL; unfold zlen in Hm; lia|rewrite Ly; exact LL|exact Ey].''',
    f'C65, BC{N}: a big-endian machine restores what it (or another one) transformed, for every setting, in debug and release builds; also for an empty texture.',
    f'''Example C65_bc{N}_lossless_case : let x := map (fun i => lo8 (i * 37 + 11)) (zseq 0 {3*k}) in
  zlen x mod {k} = 0 /\\
  exists y, be_transform_bc{N} (big_endian_cpu true x00) {'(Settings V2 true)' if N<3 else '(Settings3 V2 true true)'} x (List.repeat x00 {3*k}) = Ok (ROk tt, y) /\\ y <> x.
Proof. cbv zeta. split; [reflexivity|]. eexists. split; [vm_compute; reflexivity|discriminate]. Qed.
''')
    th(f'C65_bc{N}_layout',f'''forall (debug : bool) (junk : byte) (s : {st}) (inp aux out : list byte) (a b len : Z),
  len mod {k} = 0 -> 0 <= len -> 0 <= a -> 0 <= b -> a + len <= zlen inp -> b + len <= zlen out ->
  be_transform_bc{N}_with_settings (big_endian_cpu debug junk) (Ptr BIn a) (Ptr BOut b) len s (Mem inp aux out) =
  Ok (Mem inp aux (splice out b ({lay} (slice inp a len)))) /\\
  zlen ({lay} (slice inp a len)) = len.''',f'''  intros debug junk s inp aux out a b len Hm Hl Ha Hb Hi Ho.
  split; [exact (be_bc{N}_call _ s inp aux out a b len (big_endian_ok debug junk) Hm Hl Ha Hb Hi Ho)|].
  destruct ({fam}) as (sht & shu & FM).
  pose proof (zlen_slice _ inp a len ltac:(lia) ltac:(lia) ltac:(lia)) as S. unfold zlen in *.
  unfold be_bc{N}_layout. rewrite (fam_len _ _ _ _ _ _ FM); lia.''',
    f'C65, BC{N}: the transform writes the big-endian layout of Spec/BigEndian.v to [b .. b + len) and touches nothing else.')
    th(f'C65_bc{N}_untransform',f'''forall (debug : bool) (junk : byte) (s : {st}) (inp aux out : list byte) (a b len : Z),
  len mod {k} = 0 -> 0 <= len -> 0 <= a -> 0 <= b -> a + len <= zlen inp -> b + len <= zlen out ->
  exists y, be_untransform_bc{N}_with_settings (big_endian_cpu debug junk) (Ptr BIn a) (Ptr BOut b) len s (Mem inp aux out) =
    Ok (Mem inp aux (splice out b y)) /\\ zlen y = len /\\ {lay} y = slice inp a len.''',
    f'''  intros debug junk s inp aux out a b len Hm Hl Ha Hb Hi Ho.
  exact (be_unbc{N}_call _ s inp aux out a b len (big_endian_ok debug junk) Hm Hl Ha Hb Hi Ho).''',
    f'C65, BC{N}: untransforming writes the texture whose layout was given to [b .. b + len) and touches nothing else, whatever the bytes given.')
    # C66
    th(f'C66_bc{N}_no_decorrelation_partial',f'''forall (c : cfg) (debug : bool) (junk : byte) (s : {st}) (x out : list byte),
  cpu_ok c -> {cond} -> {mode} = VNone ->
  be_transform_bc{N} (big_endian_cpu debug junk) s x out = transform_bc{N} c s x out /\\
  be_untransform_bc{N} (big_endian_cpu debug junk) s x out = untransform_bc{N} c s x out.''',
    f'''  intros c debug junk s x out K HD HV.
  destruct (zlen x mod {k} =? 0) eqn:Em; [|unfold be_transform_bc{N}, transform_bc{N}, be_untransform_bc{N}, untransform_bc{N}, checked; rewrite Em; split; reflexivity].
  destruct (zlen out <? zlen x) eqn:Eo; [unfold be_transform_bc{N}, transform_bc{N}, be_untransform_bc{N}, untransform_bc{N}, checked; rewrite Em, Eo; split; reflexivity|].
  assert (EL : forall t, {lay} t = {ley} t).
  {{ intros t. unfold be_bc{N}_layout, bc{N}_layout. apply lay_ext. rewrite HV. unfold be_bc{N}_fields, bc{N}_fields, be_colour_fields, colour_fields.
    {'destruct (split_colour_endpoints s)' if N<3 else 'destruct (split_alpha_endpoints s), (split_colour_endpoints3 s)'}; cbn [app]; same_fields. }}
  destruct ({lfam}) as (sht & shu & FM).
  rewrite (be_bc{N}_slice (big_endian_cpu debug junk) s x out (big_endian_ok debug junk) ltac:(lia) ltac:(lia)).
  rewrite (bc{N}_slice c s x out K HD ltac:(lia) ltac:(lia)). rewrite EL. split; [reflexivity|].
  destruct (be_unbc{N}_slice (big_endian_cpu debug junk) s x out (big_endian_ok debug junk) ltac:(lia) ltac:(lia)) as (y & E & Ly & Ey).
  destruct (unbc{N}_slice c s x out K {'HD ' if N!=2 else ''}ltac:(lia) ltac:(lia)) as (z & E' & Lz & Ez).
  rewrite E, E'. do 3 f_equal. rewrite EL in Ey.
  apply (fam_inj2 _ _ _ _ _ _ _ _ FM); [lia|rewrite Ly; unfold zlen in Em; lia|rewrite Ly, Lz; reflexivity|].
  transitivity x; [exact Ey|symmetry; exact Ez].''',
    f'C66, BC{N}, without decorrelation: a big-endian and a little-endian machine give the same answers and the same bytes, for every input. (Partial: decorrelating settings are not portable, see the refutation.)')
    th(f'C66_bc{N}_portable_iff_partial',f'''forall (c : cfg) (debug : bool) (junk : byte) (s : {st}) (x out1 out2 : list byte),
  cpu_ok c -> {cond} -> zlen x mod {k} = 0 -> zlen x <= zlen out1 -> zlen x <= zlen out2 ->
  exists y z, transform_bc{N} c s x out1 = Ok (ROk tt, y) /\\
    be_untransform_bc{N} (big_endian_cpu debug junk) s (firstn (List.length x) y) out2 = Ok (ROk tt, z) /\\
    (firstn (List.length x) z = x <-> {lay} x = {ley} x).''',
    f'''  intros c debug junk s x out1 out2 K HD Hm H1 H2.
  destruct ({lfam}) as (sht & shu & FM).
  destruct ({fam}) as (sht' & shu' & FM').
  assert (LL : List.length ({ley} x) = List.length x)
    by (apply (fam_len _ _ _ _ _ _ FM); unfold zlen in Hm; lia).
  pose proof (bc{N}_slice c s x out1 K HD Hm H1) as T.
  destruct (be_unbc{N}_slice (big_endian_cpu debug junk) s ({ley} x) out2 (big_endian_ok debug junk)
    ltac:(unfold zlen in *; rewrite LL; exact Hm) ltac:(unfold zlen in *; rewrite LL; exact H2)) as (y & U & Ly & Ey).
  do 2 eexists. split; [exact T|]. rewrite (app_take ({ley} x)) by (symmetry; exact LL). split; [exact U|].
  rewrite (app_take y) by (rewrite Ly, LL; reflexivity). split; [intros ->; exact Ey|]. intros Q.
  apply (fam_inj2 _ _ _ _ _ _ _ _ FM'); [lia|rewrite Ly, LL; unfold zlen in Hm; lia|rewrite Ly; exact LL|].
  transitivity ({ley} x); [exact Ey|symmetry; exact Q].''',
    f'C66, BC{N}: exactly which textures survive being transformed on a little-endian machine and restored on a big-endian one: those whose two layouts agree.')
    sp='(sp : bool)' if N<3 else '(sa sp : bool)'; mk='(Settings v sp)' if N<3 else '(Settings3 v sa sp)'
    th(f'C66_bc{N}_decorrelated_refuted',f'''forall (v : variant) {sp}, v <> VNone ->
  exists (c : cfg) (x y z y' z' : list byte), cpu_ok c /\\ zlen x = {k} /\\
    transform_bc{N} c {mk} x (List.repeat x00 {k}) = Ok (ROk tt, y) /\\
    be_untransform_bc{N} (big_endian_cpu false x00) {mk} y (List.repeat x00 {k}) = Ok (ROk tt, z) /\\ z <> x /\\
    be_transform_bc{N} (big_endian_cpu false x00) {mk} x (List.repeat x00 {k}) = Ok (ROk tt, y') /\\
    untransform_bc{N} c {mk} y' (List.repeat x00 {k}) = Ok (ROk tt, z') /\\ z' <> x.''',
    f'''  intros v {sp.replace('(','').replace(' : bool)','')} HV. exists (Cfg false X86_64 false true true true true false false false x00), ({open_ex[N]}).
  destruct v; [congruence| | |]; {'destruct sp' if N<3 else 'destruct sa, sp'}; do 4 eexists;
    (split; [constructor; intros; first [reflexivity|discriminate]|]); (split; [reflexivity|]);
    (split; [vm_compute; reflexivity|]); (split; [vm_compute; reflexivity|]); (split; [intros Q; vm_compute in Q; discriminate Q|]);
    (split; [vm_compute; reflexivity|]); (split; [vm_compute; reflexivity|]); intros Q; vm_compute in Q; discriminate Q.''',
    f'C66, BC{N}, refuted with decorrelation: for every decorrelation mode and every choice of the other settings there is a block that a little-endian machine transforms and a big-endian machine restores as other bytes, and the other way round. No error is reported.')
P.append('''(** ** The endpoint splitter (C42) on a big-endian machine: no minimum length. *)
Theorem C65_split_layout : forall (debug : bool) (junk : byte) (inp aux out : list byte) (a b n : Z),
  (debug = true -> 0 < n) -> 0 <= a -> 0 <= b -> 0 <= n -> a + 4 * n <= zlen inp -> b + 4 * n <= zlen out ->
  be_common_transforms_split_565_color_endpoints_split_color_endpoints (big_endian_cpu debug junk) (Ptr BIn a) (Ptr BOut b) (4 * n) (Mem inp aux out) =
  Ok (Mem inp aux (splice out b (lay [raw 0 2; raw 2 2] (blocks 4 (slice inp a (4 * n)))))).
Proof. exact (fun debug junk inp aux out a b n => be_split_run (big_endian_cpu debug junk) inp aux out a b n (big_endian_ok debug junk)). Qed.
Print Assumptions C65_split_layout.
''')
open('Proofs/BigEndianProps.v','w').write(H+'\n'+'\n'.join(L))
open('Props/PBigEndian.v','w').write(PH+'\n'+'\n'.join(P))
