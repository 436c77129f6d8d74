(** Proofs of C65 and C66 (generated by tools/gen_pbe.py; the statements are in Props/PBigEndian.v). *)
From Verif Require Import Base.Bytes Base.Res Model.Color565 Model.Ycc Model.Kernel Model.Transform Model.BigEndian Model.BeTransform
  Spec.YCoCg Spec.Layout Spec.BigEndian
  Proofs.KernelCheck Proofs.KernelLoop Proofs.KernelFun Proofs.Shapes Proofs.BeShapes
  Proofs.LayoutFacts Proofs.ShapeLayout Proofs.Families Proofs.BeFamilies Proofs.TransformFacts Proofs.SliceFacts
  Proofs.BeTransformFacts Proofs.BeSliceFacts Proofs.BigEndianFacts.
From Coq Require Import ZifyBool ZifyNat.

Lemma fam_inj2 : forall k fs sht shu v ws x x', FAM v sht shu k fs ws -> (0 < k)%nat ->
  (List.length x mod k = 0)%nat -> List.length x = List.length x' -> lay fs (blocks k x) = lay fs (blocks k x') -> x = x'.
Proof. intros. eapply fam_inj; eassumption. Qed.

Lemma be_colour_none : forall off b, be_colour VNone off b = colour VNone off b.
Proof. intros. unfold be_colour, colour, ycocg. rewrite u16be_le, ?lo8_u16le, ?hi8_u16le. reflexivity. Qed.
Lemma lay_ext : forall fs gs bs, Forall2 (fun f g : field => forall b, f b = g b) fs gs -> lay fs bs = lay gs bs.
Proof.
  intros fs gs bs H. unfold lay. f_equal. induction H as [|f g fs gs E H IH]; [reflexivity|]. cbn [map]. f_equal; [|exact IH].
  f_equal. apply map_ext. exact E.
Qed.
Ltac same_fields := repeat first [apply Forall2_nil | apply Forall2_cons]; intros; unfold both; rewrite ?be_colour_none; reflexivity.
Lemma app_take : forall (l r : list byte) n, n = List.length l -> firstn n (l ++ r) = l.
Proof. intros l r n ->. rewrite firstn_app, firstn_all, Nat.sub_diag. apply app_nil_r. Qed.

Lemma lC65_bc1_lossless : forall (d1 d2 : bool) (j1 j2 : byte) (s : settings) (x out1 out2 : list byte),
  zlen x mod 8 = 0 -> zlen x <= zlen out1 -> zlen x <= zlen out2 ->
  exists y z, be_transform_bc1 (big_endian_cpu d1 j1) s x out1 = Ok (ROk tt, y) /\
    be_untransform_bc1 (big_endian_cpu d2 j2) s (firstn (List.length x) y) out2 = Ok (ROk tt, z) /\
    firstn (List.length x) z = x.
Proof.
  intros d1 d2 j1 j2 s x out1 out2 Hm H1 H2.
  destruct (be_bc1_fam (decorrelation_mode s) (split_colour_endpoints s)) as (sht & shu & FM).
  assert (LL : List.length (be_bc1_layout (decorrelation_mode s) (split_colour_endpoints s) x) = List.length x)
    by (apply (fam_len _ _ _ _ _ _ FM); unfold zlen in Hm; lia).
  pose proof (be_bc1_slice (big_endian_cpu d1 j1) s x out1 (big_endian_ok d1 j1) Hm H1) as T.
  destruct (be_unbc1_slice (big_endian_cpu d2 j2) s (be_bc1_layout (decorrelation_mode s) (split_colour_endpoints s) x) out2 (big_endian_ok d2 j2)
    ltac:(unfold zlen in *; rewrite LL; exact Hm) ltac:(unfold zlen in *; rewrite LL; exact H2)) as (y & U & Ly & Ey).
  do 2 eexists. split; [exact T|]. rewrite (app_take (be_bc1_layout (decorrelation_mode s) (split_colour_endpoints s) x)) by (symmetry; exact LL). split; [exact U|].
  rewrite (app_take y) by (rewrite Ly, LL; reflexivity).
  apply (fam_inj2 _ _ _ _ _ _ _ _ FM); [lia|rewrite Ly, LL; unfold zlen in Hm; lia|rewrite Ly; exact LL|exact Ey].
Qed.

Lemma lC65_bc1_layout : forall (debug : bool) (junk : byte) (s : settings) (inp aux out : list byte) (a b len : Z),
  len mod 8 = 0 -> 0 <= len -> 0 <= a -> 0 <= b -> a + len <= zlen inp -> b + len <= zlen out ->
  be_transform_bc1_with_settings (big_endian_cpu debug junk) (Ptr BIn a) (Ptr BOut b) len s (Mem inp aux out) =
  Ok (Mem inp aux (splice out b (be_bc1_layout (decorrelation_mode s) (split_colour_endpoints s) (slice inp a len)))) /\
  zlen (be_bc1_layout (decorrelation_mode s) (split_colour_endpoints s) (slice inp a len)) = len.
Proof.
  intros debug junk s inp aux out a b len Hm Hl Ha Hb Hi Ho.
  split; [exact (be_bc1_call _ s inp aux out a b len (big_endian_ok debug junk) Hm Hl Ha Hb Hi Ho)|].
  destruct (be_bc1_fam (decorrelation_mode s) (split_colour_endpoints s)) as (sht & shu & FM).
  pose proof (zlen_slice _ inp a len ltac:(lia) ltac:(lia) ltac:(lia)) as S. unfold zlen in *.
  unfold be_bc1_layout. rewrite (fam_len _ _ _ _ _ _ FM); lia.
Qed.

Lemma lC65_bc1_untransform : forall (debug : bool) (junk : byte) (s : settings) (inp aux out : list byte) (a b len : Z),
  len mod 8 = 0 -> 0 <= len -> 0 <= a -> 0 <= b -> a + len <= zlen inp -> b + len <= zlen out ->
  exists y, be_untransform_bc1_with_settings (big_endian_cpu debug junk) (Ptr BIn a) (Ptr BOut b) len s (Mem inp aux out) =
    Ok (Mem inp aux (splice out b y)) /\ zlen y = len /\ be_bc1_layout (decorrelation_mode s) (split_colour_endpoints s) y = slice inp a len.
Proof.
  intros debug junk s inp aux out a b len Hm Hl Ha Hb Hi Ho.
  exact (be_unbc1_call _ s inp aux out a b len (big_endian_ok debug junk) Hm Hl Ha Hb Hi Ho).
Qed.

Lemma lC66_bc1_no_decorrelation_partial : forall (c : cfg) (debug : bool) (junk : byte) (s : settings) (x out : list byte),
  cpu_ok c -> (c_debug c = true -> split_colour_endpoints s = true -> x <> []) -> decorrelation_mode s = VNone ->
  be_transform_bc1 (big_endian_cpu debug junk) s x out = transform_bc1 c s x out /\
  be_untransform_bc1 (big_endian_cpu debug junk) s x out = untransform_bc1 c s x out.
Proof.
  intros c debug junk s x out K HD HV.
  destruct (zlen x mod 8 =? 0) eqn:Em; [|unfold be_transform_bc1, transform_bc1, be_untransform_bc1, untransform_bc1, checked; rewrite Em; split; reflexivity].
  destruct (zlen out <? zlen x) eqn:Eo; [unfold be_transform_bc1, transform_bc1, be_untransform_bc1, untransform_bc1, checked; rewrite Em, Eo; split; reflexivity|].
  assert (EL : forall t, be_bc1_layout (decorrelation_mode s) (split_colour_endpoints s) t = bc1_layout (decorrelation_mode s) (split_colour_endpoints s) t).
  { intros t. unfold be_bc1_layout, bc1_layout. apply lay_ext. rewrite HV. unfold be_bc1_fields, bc1_fields, be_colour_fields, colour_fields.
    destruct (split_colour_endpoints s); cbn [app]; same_fields. }
  destruct (bc1_fam (decorrelation_mode s) (split_colour_endpoints s)) as (sht & shu & FM).
  rewrite (be_bc1_slice (big_endian_cpu debug junk) s x out (big_endian_ok debug junk) ltac:(lia) ltac:(lia)).
  rewrite (bc1_slice c s x out K HD ltac:(lia) ltac:(lia)). rewrite EL. split; [reflexivity|].
  destruct (be_unbc1_slice (big_endian_cpu debug junk) s x out (big_endian_ok debug junk) ltac:(lia) ltac:(lia)) as (y & E & Ly & Ey).
  destruct (unbc1_slice c s x out K HD ltac:(lia) ltac:(lia)) as (z & E' & Lz & Ez).
  rewrite E, E'. do 3 f_equal. rewrite EL in Ey.
  apply (fam_inj2 _ _ _ _ _ _ _ _ FM); [lia|rewrite Ly; unfold zlen in Em; lia|rewrite Ly, Lz; reflexivity|].
  transitivity x; [exact Ey|symmetry; exact Ez].
Qed.

Lemma lC66_bc1_portable_iff_partial : forall (c : cfg) (debug : bool) (junk : byte) (s : settings) (x out1 out2 : list byte),
  cpu_ok c -> (c_debug c = true -> split_colour_endpoints s = true -> x <> []) -> zlen x mod 8 = 0 -> zlen x <= zlen out1 -> zlen x <= zlen out2 ->
  exists y z, transform_bc1 c s x out1 = Ok (ROk tt, y) /\
    be_untransform_bc1 (big_endian_cpu debug junk) s (firstn (List.length x) y) out2 = Ok (ROk tt, z) /\
    (firstn (List.length x) z = x <-> be_bc1_layout (decorrelation_mode s) (split_colour_endpoints s) x = bc1_layout (decorrelation_mode s) (split_colour_endpoints s) x).
Proof.
  intros c debug junk s x out1 out2 K HD Hm H1 H2.
  destruct (bc1_fam (decorrelation_mode s) (split_colour_endpoints s)) as (sht & shu & FM).
  destruct (be_bc1_fam (decorrelation_mode s) (split_colour_endpoints s)) as (sht' & shu' & FM').
  assert (LL : List.length (bc1_layout (decorrelation_mode s) (split_colour_endpoints s) x) = List.length x)
    by (apply (fam_len _ _ _ _ _ _ FM); unfold zlen in Hm; lia).
  pose proof (bc1_slice c s x out1 K HD Hm H1) as T.
  destruct (be_unbc1_slice (big_endian_cpu debug junk) s (bc1_layout (decorrelation_mode s) (split_colour_endpoints s) x) out2 (big_endian_ok debug junk)
    ltac:(unfold zlen in *; rewrite LL; exact Hm) ltac:(unfold zlen in *; rewrite LL; exact H2)) as (y & U & Ly & Ey).
  do 2 eexists. split; [exact T|]. rewrite (app_take (bc1_layout (decorrelation_mode s) (split_colour_endpoints s) x)) by (symmetry; exact LL). split; [exact U|].
  rewrite (app_take y) by (rewrite Ly, LL; reflexivity). split; [intros ->; exact Ey|]. intros Q.
  apply (fam_inj2 _ _ _ _ _ _ _ _ FM'); [lia|rewrite Ly, LL; unfold zlen in Hm; lia|rewrite Ly; exact LL|].
  transitivity (bc1_layout (decorrelation_mode s) (split_colour_endpoints s) x); [exact Ey|symmetry; exact Q].
Qed.

Lemma lC66_bc1_decorrelated_refuted : forall (v : variant) (sp : bool), v <> VNone ->
  exists (c : cfg) (x y z y' z' : list byte), cpu_ok c /\ zlen x = 8 /\
    transform_bc1 c (Settings v sp) x (List.repeat x00 8) = Ok (ROk tt, y) /\
    be_untransform_bc1 (big_endian_cpu false x00) (Settings v sp) y (List.repeat x00 8) = Ok (ROk tt, z) /\ z <> x /\
    be_transform_bc1 (big_endian_cpu false x00) (Settings v sp) x (List.repeat x00 8) = Ok (ROk tt, y') /\
    untransform_bc1 c (Settings v sp) y' (List.repeat x00 8) = Ok (ROk tt, z') /\ z' <> x.
Proof.
  intros v sp HV. exists (Cfg false X86_64 false true true true true false false false x00), (map (fun i => lo8 (i * 37 + 11)) (zseq 0 8)).
  destruct v; [congruence| | |]; destruct sp; do 4 eexists;
    (split; [constructor; intros; first [reflexivity|discriminate]|]); (split; [reflexivity|]);
    (split; [vm_compute; reflexivity|]); (split; [vm_compute; reflexivity|]); (split; [intros Q; vm_compute in Q; discriminate Q|]);
    (split; [vm_compute; reflexivity|]); (split; [vm_compute; reflexivity|]); intros Q; vm_compute in Q; discriminate Q.
Qed.

Lemma lC65_bc2_lossless : forall (d1 d2 : bool) (j1 j2 : byte) (s : settings) (x out1 out2 : list byte),
  zlen x mod 16 = 0 -> zlen x <= zlen out1 -> zlen x <= zlen out2 ->
  exists y z, be_transform_bc2 (big_endian_cpu d1 j1) s x out1 = Ok (ROk tt, y) /\
    be_untransform_bc2 (big_endian_cpu d2 j2) s (firstn (List.length x) y) out2 = Ok (ROk tt, z) /\
    firstn (List.length x) z = x.
Proof.
  intros d1 d2 j1 j2 s x out1 out2 Hm H1 H2.
  destruct (be_bc2_fam (decorrelation_mode s) (split_colour_endpoints s)) as (sht & shu & FM).
  assert (LL : List.length (be_bc2_layout (decorrelation_mode s) (split_colour_endpoints s) x) = List.length x)
    by (apply (fam_len _ _ _ _ _ _ FM); unfold zlen in Hm; lia).
  pose proof (be_bc2_slice (big_endian_cpu d1 j1) s x out1 (big_endian_ok d1 j1) Hm H1) as T.
  destruct (be_unbc2_slice (big_endian_cpu d2 j2) s (be_bc2_layout (decorrelation_mode s) (split_colour_endpoints s) x) out2 (big_endian_ok d2 j2)
    ltac:(unfold zlen in *; rewrite LL; exact Hm) ltac:(unfold zlen in *; rewrite LL; exact H2)) as (y & U & Ly & Ey).
  do 2 eexists. split; [exact T|]. rewrite (app_take (be_bc2_layout (decorrelation_mode s) (split_colour_endpoints s) x)) by (symmetry; exact LL). split; [exact U|].
  rewrite (app_take y) by (rewrite Ly, LL; reflexivity).
  apply (fam_inj2 _ _ _ _ _ _ _ _ FM); [lia|rewrite Ly, LL; unfold zlen in Hm; lia|rewrite Ly; exact LL|exact Ey].
Qed.

Lemma lC65_bc2_layout : forall (debug : bool) (junk : byte) (s : settings) (inp aux out : list byte) (a b len : Z),
  len mod 16 = 0 -> 0 <= len -> 0 <= a -> 0 <= b -> a + len <= zlen inp -> b + len <= zlen out ->
  be_transform_bc2_with_settings (big_endian_cpu debug junk) (Ptr BIn a) (Ptr BOut b) len s (Mem inp aux out) =
  Ok (Mem inp aux (splice out b (be_bc2_layout (decorrelation_mode s) (split_colour_endpoints s) (slice inp a len)))) /\
  zlen (be_bc2_layout (decorrelation_mode s) (split_colour_endpoints s) (slice inp a len)) = len.
Proof.
  intros debug junk s inp aux out a b len Hm Hl Ha Hb Hi Ho.
  split; [exact (be_bc2_call _ s inp aux out a b len (big_endian_ok debug junk) Hm Hl Ha Hb Hi Ho)|].
  destruct (be_bc2_fam (decorrelation_mode s) (split_colour_endpoints s)) as (sht & shu & FM).
  pose proof (zlen_slice _ inp a len ltac:(lia) ltac:(lia) ltac:(lia)) as S. unfold zlen in *.
  unfold be_bc2_layout. rewrite (fam_len _ _ _ _ _ _ FM); lia.
Qed.

Lemma lC65_bc2_untransform : forall (debug : bool) (junk : byte) (s : settings) (inp aux out : list byte) (a b len : Z),
  len mod 16 = 0 -> 0 <= len -> 0 <= a -> 0 <= b -> a + len <= zlen inp -> b + len <= zlen out ->
  exists y, be_untransform_bc2_with_settings (big_endian_cpu debug junk) (Ptr BIn a) (Ptr BOut b) len s (Mem inp aux out) =
    Ok (Mem inp aux (splice out b y)) /\ zlen y = len /\ be_bc2_layout (decorrelation_mode s) (split_colour_endpoints s) y = slice inp a len.
Proof.
  intros debug junk s inp aux out a b len Hm Hl Ha Hb Hi Ho.
  exact (be_unbc2_call _ s inp aux out a b len (big_endian_ok debug junk) Hm Hl Ha Hb Hi Ho).
Qed.

Lemma lC66_bc2_no_decorrelation_partial : forall (c : cfg) (debug : bool) (junk : byte) (s : settings) (x out : list byte),
  cpu_ok c -> (c_avx512bw c = true -> c_avx512vl c = true) -> decorrelation_mode s = VNone ->
  be_transform_bc2 (big_endian_cpu debug junk) s x out = transform_bc2 c s x out /\
  be_untransform_bc2 (big_endian_cpu debug junk) s x out = untransform_bc2 c s x out.
Proof.
  intros c debug junk s x out K HD HV.
  destruct (zlen x mod 16 =? 0) eqn:Em; [|unfold be_transform_bc2, transform_bc2, be_untransform_bc2, untransform_bc2, checked; rewrite Em; split; reflexivity].
  destruct (zlen out <? zlen x) eqn:Eo; [unfold be_transform_bc2, transform_bc2, be_untransform_bc2, untransform_bc2, checked; rewrite Em, Eo; split; reflexivity|].
  assert (EL : forall t, be_bc2_layout (decorrelation_mode s) (split_colour_endpoints s) t = bc2_layout (decorrelation_mode s) (split_colour_endpoints s) t).
  { intros t. unfold be_bc2_layout, bc2_layout. apply lay_ext. rewrite HV. unfold be_bc2_fields, bc2_fields, be_colour_fields, colour_fields.
    destruct (split_colour_endpoints s); cbn [app]; same_fields. }
  destruct (bc2_fam (decorrelation_mode s) (split_colour_endpoints s)) as (sht & shu & FM).
  rewrite (be_bc2_slice (big_endian_cpu debug junk) s x out (big_endian_ok debug junk) ltac:(lia) ltac:(lia)).
  rewrite (bc2_slice c s x out K HD ltac:(lia) ltac:(lia)). rewrite EL. split; [reflexivity|].
  destruct (be_unbc2_slice (big_endian_cpu debug junk) s x out (big_endian_ok debug junk) ltac:(lia) ltac:(lia)) as (y & E & Ly & Ey).
  destruct (unbc2_slice c s x out K ltac:(lia) ltac:(lia)) as (z & E' & Lz & Ez).
  rewrite E, E'. do 3 f_equal. rewrite EL in Ey.
  apply (fam_inj2 _ _ _ _ _ _ _ _ FM); [lia|rewrite Ly; unfold zlen in Em; lia|rewrite Ly, Lz; reflexivity|].
  transitivity x; [exact Ey|symmetry; exact Ez].
Qed.

Lemma lC66_bc2_portable_iff_partial : forall (c : cfg) (debug : bool) (junk : byte) (s : settings) (x out1 out2 : list byte),
  cpu_ok c -> (c_avx512bw c = true -> c_avx512vl c = true) -> zlen x mod 16 = 0 -> zlen x <= zlen out1 -> zlen x <= zlen out2 ->
  exists y z, transform_bc2 c s x out1 = Ok (ROk tt, y) /\
    be_untransform_bc2 (big_endian_cpu debug junk) s (firstn (List.length x) y) out2 = Ok (ROk tt, z) /\
    (firstn (List.length x) z = x <-> be_bc2_layout (decorrelation_mode s) (split_colour_endpoints s) x = bc2_layout (decorrelation_mode s) (split_colour_endpoints s) x).
Proof.
  intros c debug junk s x out1 out2 K HD Hm H1 H2.
  destruct (bc2_fam (decorrelation_mode s) (split_colour_endpoints s)) as (sht & shu & FM).
  destruct (be_bc2_fam (decorrelation_mode s) (split_colour_endpoints s)) as (sht' & shu' & FM').
  assert (LL : List.length (bc2_layout (decorrelation_mode s) (split_colour_endpoints s) x) = List.length x)
    by (apply (fam_len _ _ _ _ _ _ FM); unfold zlen in Hm; lia).
  pose proof (bc2_slice c s x out1 K HD Hm H1) as T.
  destruct (be_unbc2_slice (big_endian_cpu debug junk) s (bc2_layout (decorrelation_mode s) (split_colour_endpoints s) x) out2 (big_endian_ok debug junk)
    ltac:(unfold zlen in *; rewrite LL; exact Hm) ltac:(unfold zlen in *; rewrite LL; exact H2)) as (y & U & Ly & Ey).
  do 2 eexists. split; [exact T|]. rewrite (app_take (bc2_layout (decorrelation_mode s) (split_colour_endpoints s) x)) by (symmetry; exact LL). split; [exact U|].
  rewrite (app_take y) by (rewrite Ly, LL; reflexivity). split; [intros ->; exact Ey|]. intros Q.
  apply (fam_inj2 _ _ _ _ _ _ _ _ FM'); [lia|rewrite Ly, LL; unfold zlen in Hm; lia|rewrite Ly; exact LL|].
  transitivity (bc2_layout (decorrelation_mode s) (split_colour_endpoints s) x); [exact Ey|symmetry; exact Q].
Qed.

Lemma lC66_bc2_decorrelated_refuted : forall (v : variant) (sp : bool), v <> VNone ->
  exists (c : cfg) (x y z y' z' : list byte), cpu_ok c /\ zlen x = 16 /\
    transform_bc2 c (Settings v sp) x (List.repeat x00 16) = Ok (ROk tt, y) /\
    be_untransform_bc2 (big_endian_cpu false x00) (Settings v sp) y (List.repeat x00 16) = Ok (ROk tt, z) /\ z <> x /\
    be_transform_bc2 (big_endian_cpu false x00) (Settings v sp) x (List.repeat x00 16) = Ok (ROk tt, y') /\
    untransform_bc2 c (Settings v sp) y' (List.repeat x00 16) = Ok (ROk tt, z') /\ z' <> x.
Proof.
  intros v sp HV. exists (Cfg false X86_64 false true true true true false false false x00), (map (fun i => lo8 (i * 37 + 11)) (zseq 0 16)).
  destruct v; [congruence| | |]; destruct sp; do 4 eexists;
    (split; [constructor; intros; first [reflexivity|discriminate]|]); (split; [reflexivity|]);
    (split; [vm_compute; reflexivity|]); (split; [vm_compute; reflexivity|]); (split; [intros Q; vm_compute in Q; discriminate Q|]);
    (split; [vm_compute; reflexivity|]); (split; [vm_compute; reflexivity|]); intros Q; vm_compute in Q; discriminate Q.
Qed.

Lemma lC65_bc3_lossless : forall (d1 d2 : bool) (j1 j2 : byte) (s : settings3) (x out1 out2 : list byte),
  zlen x mod 16 = 0 -> zlen x <= zlen out1 -> zlen x <= zlen out2 ->
  exists y z, be_transform_bc3 (big_endian_cpu d1 j1) s x out1 = Ok (ROk tt, y) /\
    be_untransform_bc3 (big_endian_cpu d2 j2) s (firstn (List.length x) y) out2 = Ok (ROk tt, z) /\
    firstn (List.length x) z = x.
Proof.
  intros d1 d2 j1 j2 s x out1 out2 Hm H1 H2.
  destruct (be_bc3_fam (decorrelation_mode3 s) (split_alpha_endpoints s) (split_colour_endpoints3 s)) as (sht & shu & FM).
  assert (LL : List.length (be_bc3_layout (decorrelation_mode3 s) (split_alpha_endpoints s) (split_colour_endpoints3 s) x) = List.length x)
    by (apply (fam_len _ _ _ _ _ _ FM); unfold zlen in Hm; lia).
  pose proof (be_bc3_slice (big_endian_cpu d1 j1) s x out1 (big_endian_ok d1 j1) Hm H1) as T.
  destruct (be_unbc3_slice (big_endian_cpu d2 j2) s (be_bc3_layout (decorrelation_mode3 s) (split_alpha_endpoints s) (split_colour_endpoints3 s) x) out2 (big_endian_ok d2 j2)
    ltac:(unfold zlen in *; rewrite LL; exact Hm) ltac:(unfold zlen in *; rewrite LL; exact H2)) as (y & U & Ly & Ey).
  do 2 eexists. split; [exact T|]. rewrite (app_take (be_bc3_layout (decorrelation_mode3 s) (split_alpha_endpoints s) (split_colour_endpoints3 s) x)) by (symmetry; exact LL). split; [exact U|].
  rewrite (app_take y) by (rewrite Ly, LL; reflexivity).
  apply (fam_inj2 _ _ _ _ _ _ _ _ FM); [lia|rewrite Ly, LL; unfold zlen in Hm; lia|rewrite Ly; exact LL|exact Ey].
Qed.

Lemma lC65_bc3_layout : forall (debug : bool) (junk : byte) (s : settings3) (inp aux out : list byte) (a b len : Z),
  len mod 16 = 0 -> 0 <= len -> 0 <= a -> 0 <= b -> a + len <= zlen inp -> b + len <= zlen out ->
  be_transform_bc3_with_settings (big_endian_cpu debug junk) (Ptr BIn a) (Ptr BOut b) len s (Mem inp aux out) =
  Ok (Mem inp aux (splice out b (be_bc3_layout (decorrelation_mode3 s) (split_alpha_endpoints s) (split_colour_endpoints3 s) (slice inp a len)))) /\
  zlen (be_bc3_layout (decorrelation_mode3 s) (split_alpha_endpoints s) (split_colour_endpoints3 s) (slice inp a len)) = len.
Proof.
  intros debug junk s inp aux out a b len Hm Hl Ha Hb Hi Ho.
  split; [exact (be_bc3_call _ s inp aux out a b len (big_endian_ok debug junk) Hm Hl Ha Hb Hi Ho)|].
  destruct (be_bc3_fam (decorrelation_mode3 s) (split_alpha_endpoints s) (split_colour_endpoints3 s)) as (sht & shu & FM).
  pose proof (zlen_slice _ inp a len ltac:(lia) ltac:(lia) ltac:(lia)) as S. unfold zlen in *.
  unfold be_bc3_layout. rewrite (fam_len _ _ _ _ _ _ FM); lia.
Qed.

Lemma lC65_bc3_untransform : forall (debug : bool) (junk : byte) (s : settings3) (inp aux out : list byte) (a b len : Z),
  len mod 16 = 0 -> 0 <= len -> 0 <= a -> 0 <= b -> a + len <= zlen inp -> b + len <= zlen out ->
  exists y, be_untransform_bc3_with_settings (big_endian_cpu debug junk) (Ptr BIn a) (Ptr BOut b) len s (Mem inp aux out) =
    Ok (Mem inp aux (splice out b y)) /\ zlen y = len /\ be_bc3_layout (decorrelation_mode3 s) (split_alpha_endpoints s) (split_colour_endpoints3 s) y = slice inp a len.
Proof.
  intros debug junk s inp aux out a b len Hm Hl Ha Hb Hi Ho.
  exact (be_unbc3_call _ s inp aux out a b len (big_endian_ok debug junk) Hm Hl Ha Hb Hi Ho).
Qed.

Lemma lC66_bc3_no_decorrelation_partial : forall (c : cfg) (debug : bool) (junk : byte) (s : settings3) (x out : list byte),
  cpu_ok c -> (c_debug c = true -> split_alpha_endpoints s = true -> x <> []) -> decorrelation_mode3 s = VNone ->
  be_transform_bc3 (big_endian_cpu debug junk) s x out = transform_bc3 c s x out /\
  be_untransform_bc3 (big_endian_cpu debug junk) s x out = untransform_bc3 c s x out.
Proof.
  intros c debug junk s x out K HD HV.
  destruct (zlen x mod 16 =? 0) eqn:Em; [|unfold be_transform_bc3, transform_bc3, be_untransform_bc3, untransform_bc3, checked; rewrite Em; split; reflexivity].
  destruct (zlen out <? zlen x) eqn:Eo; [unfold be_transform_bc3, transform_bc3, be_untransform_bc3, untransform_bc3, checked; rewrite Em, Eo; split; reflexivity|].
  assert (EL : forall t, be_bc3_layout (decorrelation_mode3 s) (split_alpha_endpoints s) (split_colour_endpoints3 s) t = bc3_layout (decorrelation_mode3 s) (split_alpha_endpoints s) (split_colour_endpoints3 s) t).
  { intros t. unfold be_bc3_layout, bc3_layout. apply lay_ext. rewrite HV. unfold be_bc3_fields, bc3_fields, be_colour_fields, colour_fields.
    destruct (split_alpha_endpoints s), (split_colour_endpoints3 s); cbn [app]; same_fields. }
  destruct (bc3_fam (decorrelation_mode3 s) (split_alpha_endpoints s) (split_colour_endpoints3 s)) as (sht & shu & FM).
  rewrite (be_bc3_slice (big_endian_cpu debug junk) s x out (big_endian_ok debug junk) ltac:(lia) ltac:(lia)).
  rewrite (bc3_slice c s x out K HD ltac:(lia) ltac:(lia)). rewrite EL. split; [reflexivity|].
  destruct (be_unbc3_slice (big_endian_cpu debug junk) s x out (big_endian_ok debug junk) ltac:(lia) ltac:(lia)) as (y & E & Ly & Ey).
  destruct (unbc3_slice c s x out K HD ltac:(lia) ltac:(lia)) as (z & E' & Lz & Ez).
  rewrite E, E'. do 3 f_equal. rewrite EL in Ey.
  apply (fam_inj2 _ _ _ _ _ _ _ _ FM); [lia|rewrite Ly; unfold zlen in Em; lia|rewrite Ly, Lz; reflexivity|].
  transitivity x; [exact Ey|symmetry; exact Ez].
Qed.

Lemma lC66_bc3_portable_iff_partial : forall (c : cfg) (debug : bool) (junk : byte) (s : settings3) (x out1 out2 : list byte),
  cpu_ok c -> (c_debug c = true -> split_alpha_endpoints s = true -> x <> []) -> zlen x mod 16 = 0 -> zlen x <= zlen out1 -> zlen x <= zlen out2 ->
  exists y z, transform_bc3 c s x out1 = Ok (ROk tt, y) /\
    be_untransform_bc3 (big_endian_cpu debug junk) s (firstn (List.length x) y) out2 = Ok (ROk tt, z) /\
    (firstn (List.length x) z = x <-> be_bc3_layout (decorrelation_mode3 s) (split_alpha_endpoints s) (split_colour_endpoints3 s) x = bc3_layout (decorrelation_mode3 s) (split_alpha_endpoints s) (split_colour_endpoints3 s) x).
Proof.
  intros c debug junk s x out1 out2 K HD Hm H1 H2.
  destruct (bc3_fam (decorrelation_mode3 s) (split_alpha_endpoints s) (split_colour_endpoints3 s)) as (sht & shu & FM).
  destruct (be_bc3_fam (decorrelation_mode3 s) (split_alpha_endpoints s) (split_colour_endpoints3 s)) as (sht' & shu' & FM').
  assert (LL : List.length (bc3_layout (decorrelation_mode3 s) (split_alpha_endpoints s) (split_colour_endpoints3 s) x) = List.length x)
    by (apply (fam_len _ _ _ _ _ _ FM); unfold zlen in Hm; lia).
  pose proof (bc3_slice c s x out1 K HD Hm H1) as T.
  destruct (be_unbc3_slice (big_endian_cpu debug junk) s (bc3_layout (decorrelation_mode3 s) (split_alpha_endpoints s) (split_colour_endpoints3 s) x) out2 (big_endian_ok debug junk)
    ltac:(unfold zlen in *; rewrite LL; exact Hm) ltac:(unfold zlen in *; rewrite LL; exact H2)) as (y & U & Ly & Ey).
  do 2 eexists. split; [exact T|]. rewrite (app_take (bc3_layout (decorrelation_mode3 s) (split_alpha_endpoints s) (split_colour_endpoints3 s) x)) by (symmetry; exact LL). split; [exact U|].
  rewrite (app_take y) by (rewrite Ly, LL; reflexivity). split; [intros ->; exact Ey|]. intros Q.
  apply (fam_inj2 _ _ _ _ _ _ _ _ FM'); [lia|rewrite Ly, LL; unfold zlen in Hm; lia|rewrite Ly; exact LL|].
  transitivity (bc3_layout (decorrelation_mode3 s) (split_alpha_endpoints s) (split_colour_endpoints3 s) x); [exact Ey|symmetry; exact Q].
Qed.

Lemma lC66_bc3_decorrelated_refuted : forall (v : variant) (sa sp : bool), v <> VNone ->
  exists (c : cfg) (x y z y' z' : list byte), cpu_ok c /\ zlen x = 16 /\
    transform_bc3 c (Settings3 v sa sp) x (List.repeat x00 16) = Ok (ROk tt, y) /\
    be_untransform_bc3 (big_endian_cpu false x00) (Settings3 v sa sp) y (List.repeat x00 16) = Ok (ROk tt, z) /\ z <> x /\
    be_transform_bc3 (big_endian_cpu false x00) (Settings3 v sa sp) x (List.repeat x00 16) = Ok (ROk tt, y') /\
    untransform_bc3 c (Settings3 v sa sp) y' (List.repeat x00 16) = Ok (ROk tt, z') /\ z' <> x.
Proof.
  intros v sa sp HV. exists (Cfg false X86_64 false true true true true false false false x00), (map (fun i => lo8 (i * 37 + 11)) (zseq 0 16)).
  destruct v; [congruence| | |]; destruct sa, sp; do 4 eexists;
    (split; [constructor; intros; first [reflexivity|discriminate]|]); (split; [reflexivity|]);
    (split; [vm_compute; reflexivity|]); (split; [vm_compute; reflexivity|]); (split; [intros Q; vm_compute in Q; discriminate Q|]);
    (split; [vm_compute; reflexivity|]); (split; [vm_compute; reflexivity|]); intros Q; vm_compute in Q; discriminate Q.
Qed.
