(** What restoring makes of damaged transformed bytes on big-endian machines. *)
From Verif Require Import Base.Bytes Base.Res Model.Color565 Model.Kernel Model.Transform Model.Auto Model.Builders Model.Embed Model.Bundle Model.Dds
  Model.BigEndian Model.BeTransform Model.BeFiles.
From Verif Require Import Spec.Layout Spec.BigEndian Spec.Estimator Spec.Header Spec.Files Spec.BeFiles Spec.Dds Spec.Damage Proofs.SliceFacts Proofs.AutoTheorems Proofs.EmbedFacts
  Proofs.BundleFacts Proofs.DdsFacts Proofs.DdsHandler Proofs.DdsRestore Proofs.BeSliceFacts Proofs.BigEndianFacts Proofs.BeBundleFacts Proofs.BeDdsHandler Proofs.BeDdsRestore
  Proofs.DamageFacts Proofs.DamageDds Proofs.LayoutFacts.
From Coq Require Import ZifyBool.

Lemma be_bc1_damage : forall (d1 d2 : bool) (j1 j2 : byte) (s : settings) (x out1 y z out2 : list byte),
  zlen x mod 8 = 0 -> zlen x <= zlen out1 -> be_transform_bc1 (big_endian_cpu d1 j1) s x out1 = Ok (ROk tt, y) ->
  zlen z = zlen x -> zlen z <= zlen out2 ->
  exists o, be_untransform_bc1 (big_endian_cpu d2 j2) s z out2 = Ok (ROk tt, o) /\
    damaged_blocks 8 x (firstn (List.length x) o) <= damaged_bytes (firstn (List.length x) y) z <= 8 * damaged_blocks 8 x (firstn (List.length x) o).
Proof.
  intros d1 d2 j1 j2 s x out1 y z out2 Hm Ho E Lz Ho2.
  rewrite (be_bc1_slice (big_endian_cpu d1 j1) s x out1 (big_endian_ok d1 j1) Hm Ho) in E. injection E as <-.
  destruct (be_unbc1_slice (big_endian_cpu d2 j2) s z out2 (big_endian_ok d2 j2)) as (o & R & LO & EO); try lia.
  eexists. split; [exact R|]. unfold zlen in Lz. rewrite firstn_len_app by lia.
  destruct (be_bc1_fam (decorrelation_mode s) (split_colour_endpoints s)) as (sht & shu & FM).
  rewrite firstn_len_app by (apply (fam_len _ _ _ _ _ _ FM); unfold zlen in *; lia). rewrite <- EO at 1 2.
  exact (fam_damage _ _ _ _ _ _ FM ltac:(lia) (bc1_wpos _) x o ltac:(unfold zlen in *; lia) ltac:(lia)).
Qed.
Lemma be_bc2_damage : forall (d1 d2 : bool) (j1 j2 : byte) (s : settings) (x out1 y z out2 : list byte),
  zlen x mod 16 = 0 -> zlen x <= zlen out1 -> be_transform_bc2 (big_endian_cpu d1 j1) s x out1 = Ok (ROk tt, y) ->
  zlen z = zlen x -> zlen z <= zlen out2 ->
  exists o, be_untransform_bc2 (big_endian_cpu d2 j2) s z out2 = Ok (ROk tt, o) /\
    damaged_blocks 16 x (firstn (List.length x) o) <= damaged_bytes (firstn (List.length x) y) z <= 16 * damaged_blocks 16 x (firstn (List.length x) o).
Proof.
  intros d1 d2 j1 j2 s x out1 y z out2 Hm Ho E Lz Ho2.
  rewrite (be_bc2_slice (big_endian_cpu d1 j1) s x out1 (big_endian_ok d1 j1) Hm Ho) in E. injection E as <-.
  destruct (be_unbc2_slice (big_endian_cpu d2 j2) s z out2 (big_endian_ok d2 j2)) as (o & R & LO & EO); try lia.
  eexists. split; [exact R|]. unfold zlen in Lz. rewrite firstn_len_app by lia.
  destruct (be_bc2_fam (decorrelation_mode s) (split_colour_endpoints s)) as (sht & shu & FM).
  rewrite firstn_len_app by (apply (fam_len _ _ _ _ _ _ FM); unfold zlen in *; lia). rewrite <- EO at 1 2.
  exact (fam_damage _ _ _ _ _ _ FM ltac:(lia) (bc2_wpos _) x o ltac:(unfold zlen in *; lia) ltac:(lia)).
Qed.
Lemma be_bc3_damage : forall (d1 d2 : bool) (j1 j2 : byte) (s : settings3) (x out1 y z out2 : list byte),
  zlen x mod 16 = 0 -> zlen x <= zlen out1 -> be_transform_bc3 (big_endian_cpu d1 j1) s x out1 = Ok (ROk tt, y) ->
  zlen z = zlen x -> zlen z <= zlen out2 ->
  exists o, be_untransform_bc3 (big_endian_cpu d2 j2) s z out2 = Ok (ROk tt, o) /\
    damaged_blocks 16 x (firstn (List.length x) o) <= damaged_bytes (firstn (List.length x) y) z <= 16 * damaged_blocks 16 x (firstn (List.length x) o).
Proof.
  intros d1 d2 j1 j2 s x out1 y z out2 Hm Ho E Lz Ho2.
  rewrite (be_bc3_slice (big_endian_cpu d1 j1) s x out1 (big_endian_ok d1 j1) Hm Ho) in E. injection E as <-.
  destruct (be_unbc3_slice (big_endian_cpu d2 j2) s z out2 (big_endian_ok d2 j2)) as (o & R & LO & EO); try lia.
  eexists. split; [exact R|]. unfold zlen in Lz. rewrite firstn_len_app by lia.
  destruct (be_bc3_fam (decorrelation_mode3 s) (split_alpha_endpoints s) (split_colour_endpoints3 s)) as (sht & shu & FM).
  rewrite firstn_len_app by (apply (fam_len _ _ _ _ _ _ FM); unfold zlen in *; lia). rewrite <- EO at 1 2.
  exact (fam_damage _ _ _ _ _ _ FM ltac:(lia) (bc3_wpos _ _) x o ltac:(unfold zlen in *; lia) ltac:(lia)).
Qed.

(** DDS files. *)
Lemma be_layout_damage : forall k s x x', zlen x mod codec_block k = 0 -> zlen x = zlen x' ->
  damaged_blocks (Z.to_nat (codec_block k)) x x' <= damaged_bytes (be_texture_layout k s x) (be_texture_layout k s x') <=
  codec_block k * damaged_blocks (Z.to_nat (codec_block k)) x x'.
Proof.
  intros [] s x x' Hm HL; cbn [codec_block be_texture_layout] in *; unfold zlen in *.
  - destruct (be_bc1_fam (decorrelation_mode s) (split_colour_endpoints s)) as (sht & shu & FM).
    exact (fam_damage _ _ _ _ _ _ FM ltac:(lia) (bc1_wpos _) x x' ltac:(lia) ltac:(lia)).
  - destruct (be_bc2_fam (decorrelation_mode s) (split_colour_endpoints s)) as (sht & shu & FM).
    exact (fam_damage _ _ _ _ _ _ FM ltac:(lia) (bc2_wpos _) x x' ltac:(lia) ltac:(lia)).
Qed.

Lemma be_dds_damage : forall (St Er : Type) (show : Er -> string) (c1 c2 : cfg) (v1 v2 : env) (t : bundle St Er)
    (x out : list byte) (st st' : St) (y : list byte) (i : dds_info) (z out2 : list byte),
  cpu_ok c1 -> cpu_ok c2 -> parse_dds (c_debug c1) x = Ok (Some i) ->
  (c_debug c2 = true -> c_debug c1 = false -> levels_fit x) ->
  2 ^ 32 - 1 <= usize_max v1 ->
  be_dds_transform_bundle show c1 v1 t x out st = Ok (ROk tt, y, st') ->
  let off := i_data_offset i in let n := i_data_length i in let size := block_of i in
  slice z 0 off = slice y 0 off -> off + n <= zlen z -> zlen z <= usize_max v2 -> zlen out2 = zlen z ->
  exists o, be_dds_untransform c2 v2 z out2 = Ok (ROk tt, o) /\ zlen o = zlen z /\ slice o 0 off = slice x 0 off /\
    slice o (off + n) (zlen z - (off + n)) = slice z (off + n) (zlen z - (off + n)) /\
    damaged_blocks (Z.to_nat size) (slice x off n) (slice o off n) <= damaged_bytes (slice y off n) (slice z off n) <=
    size * damaged_blocks (Z.to_nat size) (slice x off n) (slice o off n).
Proof.
  intros St Er show c1 c2 v1 v2 t x out st st' y i z out2 K1 K2 P HF HU1 E off n size HZ Hz HU2 Lo.
  destruct (be_transform_success show c1 v1 t x out st y st' i K1 P HU1 E) as (k & s & FM & _ & Hm & Hlen & Hout & _ & Y).
  destruct (parse_dds_facts _ _ _ P) as (HM & P').
  destruct (parse_facts _ _ _ P') as (_ & _ & _ & _ & Hn & Ho & Hx).
  fold off n in FM, Hm, Hlen, Y, Hn, Ho, Hx.
  assert (SZ : size = codec_block k) by (unfold size, block_of; rewrite FM; destruct k; reflexivity).
  set (T := slice x off n) in *. set (H := slice x 4 (off - 4)) in *. set (L := be_texture_layout k s T) in *.
  set (h := u32_bytes (codec_header k s)) in *. assert (Lh : zlen h = 4) by reflexivity.
  assert (LT : zlen T = n) by (apply zlen_slice; lia). assert (LH : zlen H = off - 4) by (apply zlen_slice; lia).
  assert (LL : zlen L = n) by (unfold L, zlen; rewrite be_layout_len by (rewrite LT; exact Hm); exact LT).
  set (L' := slice z off n). set (W := slice z (off + n) (zlen z - (off + n))).
  assert (LL' : zlen L' = n) by (apply zlen_slice; lia). assert (LW : zlen W = zlen z - (off + n)) by (apply zlen_slice; lia).
  assert (YH : slice y 0 off = h ++ H) by (rewrite Y, app_assoc; apply slice_start; rewrite zlen_app; lia).
  assert (YL : slice y off n = L) by (rewrite Y, app_assoc; apply slice_mid; [rewrite zlen_app; lia|exact LL]).
  assert (ZC : z = h ++ H ++ L' ++ W).
  { rewrite (cut3 z off n) at 1 by lia. rewrite HZ, YH, <- app_assoc. reflexivity. }
  set (x' := slice x 0 off ++ T ++ W).
  assert (LX0 : zlen (slice x 0 off) = off) by (apply zlen_slice; lia).
  assert (LX : zlen x' = zlen z) by (unfold x'; rewrite !zlen_app; lia).
  assert (X0 : slice x' 0 off = slice x 0 off) by (apply slice_start; exact LX0).
  assert (X4 : slice x' 4 (off - 4) = H) by (apply (slice_head _ _ _ _ off); [lia..|exact X0]).
  assert (XW : slice x' (off + n) (zlen x' - (off + n)) = W) by (apply slice_end; lia).
  assert (PX : parse_dds (c_debug c2) x' = Ok (Some i)).
  { unfold parse_dds. replace (likely_dds x') with true.
    - cbn [negb]. apply (parse_same _ x); [exact (parse_other _ _ _ _ P' HF)|fold off; lia|]. fold off.
      apply header_word; [lia|fold H; exact X4|lia].
    - rewrite likely_eq. assert (MG : has_magic x' = true); [|rewrite MG; lia].
      rewrite <- HM. unfold has_magic. f_equal.
      rewrite <- (word_firstn (Z.to_nat off) x') by lia. rewrite <- (word_firstn (Z.to_nat off) x) by lia.
      rewrite <- !slice0, X0. reflexivity. }
  destruct (be_restore c2 (c_debug c2) v2 x' out2 L' i k s K2 PX) as (T' & LT' & ET & R); fold off n; try lia.
  fold off n in R, LT'. rewrite X4, XW, X0 in R. fold h in R. rewrite <- ZC in R.
  eexists. split; [exact R|].
  assert (SK : skipn (List.length x') out2 = []) by (apply skipn_all2; unfold zlen in *; lia). rewrite SK, app_nil_r.
  assert (LZ : zlen (slice x 0 off ++ T' ++ W) = zlen z) by (rewrite !zlen_app; lia).
  split; [exact LZ|]. split; [apply slice_start; exact LX0|]. split; [apply slice_end; lia|].
  assert (OT : slice (slice x 0 off ++ T' ++ W) off n = T') by (apply slice_mid; [exact LX0|exact LT']).
  rewrite OT, YL, SZ. unfold L. rewrite <- ET. apply be_layout_damage; [rewrite LT; exact Hm|lia].
Qed.

Lemma be_transformed_parts : forall (St Er : Type) (show : Er -> string) (c1 : cfg) (v1 : env) (t : bundle St Er)
    (x out : list byte) (st st' : St) (y : list byte) (i : dds_info),
  cpu_ok c1 -> parse_dds (c_debug c1) x = Ok (Some i) -> 2 ^ 32 - 1 <= usize_max v1 ->
  be_dds_transform_bundle show c1 v1 t x out st = Ok (ROk tt, y, st') ->
  let off := i_data_offset i in let n := i_data_length i in
  128 <= off <= 148 /\ 0 <= n < 2 ^ 32 /\ n mod block_of i = 0 /\ off + n <= zlen x <= zlen y /\ slice y 4 (off - 4) = slice x 4 (off - 4) /\
  slice y (off + n) (zlen x - (off + n)) = slice x (off + n) (zlen x - (off + n)).
Proof.
  intros St Er show c1 v1 t x out st st' y i K1 P HU1 E off n.
  destruct (be_transform_success show c1 v1 t x out st y st' i K1 P HU1 E) as (k & s & FM & _ & Hm & Hlen & Hout & _ & Y).
  destruct (parse_facts _ _ _ (proj2 (parse_dds_facts _ _ _ P))) as (_ & _ & _ & _ & Hn & Ho & Hx).
  fold off n in FM, Hm, Hlen, Y, Hn, Ho, Hx.
  assert (SZ : block_of i = codec_block k) by (unfold block_of; rewrite FM; destruct k; reflexivity). rewrite SZ.
  assert (LT : zlen (slice x off n) = n) by (apply zlen_slice; lia). assert (LH : zlen (slice x 4 (off - 4)) = off - 4) by (apply zlen_slice; lia).
  assert (LR : zlen (slice x (off + n) (zlen x - (off + n))) = zlen x - (off + n)) by (apply zlen_slice; lia).
  assert (Lh : zlen (u32_bytes (codec_header k s)) = 4) by reflexivity.
  assert (LL : zlen (be_texture_layout k s (slice x off n)) = n) by (unfold zlen at 1; rewrite be_layout_len by (rewrite LT; exact Hm); exact LT).
  split; [exact Ho|]. split; [exact Hn|]. split; [exact Hm|]. split.
  { rewrite Y, !zlen_app. pose proof (zlen_nonneg _ (skipn (List.length x) out)). lia. }
  split; rewrite Y.
  - apply slice_mid; [exact Lh|exact LH].
  - rewrite app_assoc, (app_assoc _ (be_texture_layout _ _ _)). apply slice_mid; [rewrite !zlen_app; lia|exact LR].
Qed.

Lemma be_dds_damage_noticed : forall (St Er : Type) (show : Er -> string) (c1 c2 : cfg) (v1 v2 : env) (t : bundle St Er)
    (x out : list byte) (st st' : St) (y : list byte) (i : dds_info) (z out2 : list byte),
  cpu_ok c1 -> cpu_ok c2 -> parse_dds (c_debug c1) x = Ok (Some i) ->
  (c_debug c2 = true -> c_debug c1 = false -> levels_fit x) ->
  2 ^ 32 - 1 <= usize_max v1 ->
  be_dds_transform_bundle show c1 v1 t x out st = Ok (ROk tt, y, st') ->
  slice z 0 (i_data_offset i) = slice y 0 (i_data_offset i) -> zlen z = zlen x -> zlen z <= usize_max v2 -> zlen out2 = zlen z ->
  be_dds_untransform c2 v2 z out2 = Ok (ROk tt, x) -> z = firstn (List.length x) y.
Proof.
  intros St Er show c1 c2 v1 v2 t x out st st' y i z out2 K1 K2 P HF HU1 E HZ LZ HU2 Lo R.
  destruct (be_transformed_parts _ _ show c1 v1 t x out st st' y i K1 P HU1 E) as (Ho & Hn & Hm & Hl & _ & YR).
  destruct (be_dds_damage _ _ show c1 c2 v1 v2 t x out st st' y i z out2 K1 K2 P HF HU1 E HZ ltac:(lia) HU2 Lo) as (o & R' & _ & _ & OR & DB).
  rewrite R in R'. injection R' as <-. rewrite same_blocks in DB.
  set (off := i_data_offset i) in *. set (n := i_data_length i) in *.
  assert (ST : slice y off n = slice z off n).
  { apply no_damage; [apply zlen_eq; rewrite !zlen_slice by lia; reflexivity|]. lia. }
  rewrite (cut3 z off n) by lia. rewrite <- OR, HZ, <- ST, LZ, <- YR.
  set (y' := firstn (List.length x) y). assert (LY : zlen y' = zlen x) by (unfold y', zlen in *; rewrite firstn_length; lia).
  rewrite (cut3 y' off n) by lia. rewrite LY.
  assert (Q : forall a b, 0 <= a -> 0 <= b -> a + b <= zlen x -> slice y' a b = slice y a b).
  { intros a b Ha Hb Hab. apply (slice_head _ _ _ _ (zlen x)); try lia. unfold y'. rewrite !slice0. unfold zlen. rewrite Nat2Z.id, firstn_firstn.
    f_equal. lia. }
  rewrite !Q by lia. reflexivity.
Qed.

Lemma be_dds_cut_behind : forall (St Er : Type) (show : Er -> string) (c1 c2 : cfg) (v1 v2 : env) (t : bundle St Er)
    (x out : list byte) (st st' : St) (y : list byte) (i : dds_info) (m : nat) (out2 : list byte),
  cpu_ok c1 -> cpu_ok c2 -> parse_dds (c_debug c1) x = Ok (Some i) ->
  (c_debug c2 = true -> c_debug c1 = false -> levels_fit x) ->
  2 ^ 32 - 1 <= usize_max v1 -> zlen x <= usize_max v2 ->
  be_dds_transform_bundle show c1 v1 t x out st = Ok (ROk tt, y, st') ->
  i_data_offset i + i_data_length i <= Z.of_nat m <= zlen x -> zlen out2 = Z.of_nat m ->
  be_dds_untransform c2 v2 (firstn m y) out2 = Ok (ROk tt, firstn m x).
Proof.
  intros St Er show c1 c2 v1 v2 t x out st st' y i m out2 K1 K2 P HF HU1 HU2 E Hm Lo.
  destruct (be_transformed_parts _ _ show c1 v1 t x out st st' y i K1 P HU1 E) as (Ho & Hn & Hb & Hl & _ & YR).
  set (off := i_data_offset i) in *. set (n := i_data_length i) in *.
  assert (LM : forall l : list byte, zlen x <= zlen l -> zlen (firstn m l) = Z.of_nat m) by (intros l H; unfold zlen in *; rewrite firstn_length; lia).
  assert (Q : forall (l : list byte) a b, 0 <= a -> 0 <= b -> a + b <= Z.of_nat m -> slice (firstn m l) a b = slice l a b).
  { intros l a b Ha Hbb Hab. apply (slice_head _ _ _ _ (Z.of_nat m)); try lia. rewrite !slice0, Nat2Z.id, firstn_firstn. f_equal. lia. }
  assert (Ly := LM y ltac:(lia)). assert (Lx := LM x ltac:(lia)).
  destruct (be_dds_damage _ _ show c1 c2 v1 v2 t x out st st' y i (firstn m y) out2 K1 K2 P HF HU1 E) as (o & R & LO & OH & OR & DB); fold off n; try lia.
  { apply Q; lia. }
  rewrite R. do 2 f_equal. fold off n in OH, OR, DB. rewrite Q, same_bytes in DB by lia. rewrite Ly in LO, OR.
  rewrite (cut3 o off n), (cut3 (firstn m x) off n) by lia. rewrite Lx, LO, OR, OH, !Q by lia. f_equal. f_equal.
  - symmetry. apply (no_damaged_blocks (Z.to_nat (block_of i))).
    + unfold block_of. destruct (i_format i); lia.
    + assert (LT : zlen (slice x off n) = n) by (apply zlen_slice; lia).
      unfold zlen in LT. apply Nat2Z.inj. rewrite Nat2Z.inj_mod, LT, Z2Nat.id by (unfold block_of; destruct (i_format i); lia). exact Hb.
    + apply zlen_eq. rewrite !zlen_slice by lia. reflexivity.
    + unfold damaged_blocks in *. match goal with |- zlen ?l = 0 => pose proof (zlen_nonneg _ l) end. lia.
  - assert (Q2 : slice y (off + n) (Z.of_nat m - (off + n)) = slice x (off + n) (Z.of_nat m - (off + n))); [|exact Q2].
    assert (S : forall l : list byte, slice l (off + n) (Z.of_nat m - (off + n)) = firstn (Z.to_nat (Z.of_nat m - (off + n))) (slice l (off + n) (zlen x - (off + n)))).
    { intros l. unfold slice. rewrite firstn_firstn. f_equal. lia. }
    rewrite S, YR, <- S. reflexivity.
Qed.

Lemma be_dds_cut : forall (St Er : Type) (show : Er -> string) (c1 c2 : cfg) (v1 v2 : env) (t : bundle St Er)
    (x out : list byte) (st st' : St) (y : list byte) (i : dds_info) (m : nat) (out2 : list byte),
  cpu_ok c1 -> parse_dds (c_debug c1) x = Ok (Some i) ->
  (c_debug c2 = true -> c_debug c1 = false -> levels_fit x) ->
  2 ^ 32 - 1 <= usize_max v1 -> zlen x <= usize_max v2 ->
  be_dds_transform_bundle show c1 v1 t x out st = Ok (ROk tt, y, st') ->
  Z.of_nat m < i_data_offset i + i_data_length i ->
  exists e, be_dds_untransform c2 v2 (firstn m y) out2 = Ok (RErr e, out2).
Proof.
  intros St Er show c1 c2 v1 v2 t x out st st' y i m out2 K1 P HF HU1 HU2 E Hm.
  destruct (be_transformed_parts _ _ show c1 v1 t x out st st' y i K1 P HU1 E) as (Ho & Hn & Hb & Hl & YH & _).
  set (off := i_data_offset i) in *. set (n := i_data_length i) in *.
  assert (Ly : zlen (firstn m y) = Z.of_nat m) by (unfold zlen in *; rewrite firstn_length; lia).
  assert (Lx : zlen (firstn m x) = Z.of_nat m) by (unfold zlen in *; rewrite firstn_length; lia).
  unfold be_dds_untransform. rewrite Ly. destruct (Z.of_nat m <? 4); [eexists; reflexivity|]. destruct (zlen out2 <? Z.of_nat m); [eexists; reflexivity|].
  pose proof (parse_other _ (c_debug c2) _ _ (proj2 (parse_dds_facts _ _ _ P)) HF) as P2.
  assert (W : forall o, 4 <= o -> o + 4 <= off -> word y o = word x o) by (apply header_word; [lia|exact YH|lia]).
  destruct (Z.of_nat m <? off) eqn:C.
  - rewrite (parse_cut (c_debug c2) x i m P2 ltac:(fold off; lia) Lx y W Ly). eexists; reflexivity.
  - rewrite (parse_same (c_debug c2) x (firstn m y) i P2); [|fold off; lia|fold off; intros o H1 H2; rewrite word_firstn by lia; apply W; assumption].
    cbn [bind]. fold off n. unfold usize_add. replace (off + n <=? usize_max v2) with true by lia. cbn [bind].
    replace (Z.of_nat m <? off + n) with true by lia. eexists; reflexivity.
Qed.
