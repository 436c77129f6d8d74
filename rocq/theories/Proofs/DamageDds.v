(** What restoring makes of a damaged transformed DDS file. *)
From Verif Require Import Base.Bytes Base.Res Model.Color565 Model.Kernel Model.Transform Model.Auto Model.Builders Model.Embed Model.Bundle Model.Dds.
From Verif Require Import Spec.Layout Spec.Estimator Spec.Header Spec.Files Spec.Dds Spec.Damage Proofs.SliceFacts Proofs.AutoTheorems Proofs.EmbedFacts
  Proofs.BundleFacts Proofs.DdsFacts Proofs.DdsHandler Proofs.DdsRestore Proofs.DamageFacts Proofs.LayoutFacts.
From Coq Require Import ZifyBool.

Lemma layout_damage : forall k s x x', zlen x mod codec_block k = 0 -> zlen x = zlen x' ->
  damaged_blocks (Z.to_nat (codec_block k)) x x' <= damaged_bytes (texture_layout k s x) (texture_layout k s x') <=
  codec_block k * damaged_blocks (Z.to_nat (codec_block k)) x x'.
Proof.
  intros [] s x x' Hm HL; cbn [codec_block texture_layout] in *; unfold zlen in *.
  - destruct (bc1_fam (decorrelation_mode s) (split_colour_endpoints s)) as (sht & shu & FM).
    exact (fam_damage _ _ _ _ _ _ FM ltac:(lia) (bc1_wpos _) x x' ltac:(lia) ltac:(lia)).
  - destruct (bc2_fam (decorrelation_mode s) (split_colour_endpoints s)) as (sht & shu & FM).
    exact (fam_damage _ _ _ _ _ _ FM ltac:(lia) (bc2_wpos _) x x' ltac:(lia) ltac:(lia)).
Qed.

Lemma word_firstn : forall m (l : list byte) o, 0 <= o -> o + 4 <= Z.of_nat m -> word (firstn m l) o = word l o.
Proof. intros m l o Ho Hm. unfold word, znth. rewrite !nth_firstn by lia. reflexivity. Qed.
Lemma slice0 : forall (l : list byte) n, slice l 0 n = firstn (Z.to_nat n) l.
Proof. reflexivity. Qed.

(** Parsing only needs the headers. *)
Lemma parse_same : forall d x y i, parse_dds_ignore_magic d x = Ok (Some i) -> i_data_offset i <= zlen y ->
  (forall o, 4 <= o -> o + 4 <= i_data_offset i -> word y o = word x o) -> parse_dds_ignore_magic d y = Ok (Some i).
Proof.
  intros d x y i P L W. destruct (parse_facts _ _ _ P) as (CX & _ & HB & _ & _ & Ho & Hx). rewrite HB in W, L.
  assert (H8 : 128 <= header_bytes x) by (unfold header_bytes; destruct (has_dx10 x); lia).
  assert (WL : forall o, 4 <= o -> o <= 124 -> word y o = word x o) by (intros; apply W; lia).
  assert (DX : has_dx10 y = has_dx10 x) by (unfold has_dx10; rewrite WL by lia; reflexivity).
  assert (SF : stated_format y = stated_format x).
  { unfold stated_format, pixel_format. rewrite DX. destruct (has_dx10 x) eqn:E; [|rewrite !WL by lia; reflexivity].
    rewrite W by (unfold header_bytes; rewrite ?E; lia). reflexivity. }
  assert (CY : complete_headers y = true).
  { unfold complete_headers, header_bytes in *. rewrite DX. destruct (has_dx10 x); cbn [negb orb] in *; lia. }
  rewrite <- P, !parse_ignore_eq, CX, CY. unfold header_bytes, run_length, level_of, mip_count. rewrite SF, DX, !WL by lia. reflexivity.
Qed.

(** A file cut inside its headers. *)
Lemma parse_cut : forall d x i m, parse_dds_ignore_magic d x = Ok (Some i) -> Z.of_nat m < i_data_offset i -> zlen (firstn m x) = Z.of_nat m ->
  forall y, (forall o, 4 <= o -> o + 4 <= i_data_offset i -> word y o = word x o) -> zlen (firstn m y) = Z.of_nat m ->
  parse_dds_ignore_magic d (firstn m y) = Ok None.
Proof.
  intros d x i m P Hm _ y W Ly. destruct (parse_facts _ _ _ P) as (CX & _ & HB & _ & _ & Ho & Hx). rewrite parse_ignore_eq.
  replace (complete_headers (firstn m y)) with false; [reflexivity|]. unfold complete_headers. rewrite Ly.
  destruct (128 <=? Z.of_nat m) eqn:E; [|reflexivity]. cbn [andb].
  unfold has_dx10. rewrite word_firstn by lia. rewrite W by lia. fold (has_dx10 x). unfold header_bytes in HB. destruct (has_dx10 x); cbn [negb orb]; lia.
Qed.

Lemma header_word : forall (x y : list byte) off, 4 <= off <= zlen x -> slice y 4 (off - 4) = slice x 4 (off - 4) -> off <= zlen y ->
  forall o, 4 <= o -> o + 4 <= off -> word y o = word x o.
Proof.
  intros x y off Hx E Hy o H1 H2.
  assert (C : forall l : list byte, off <= zlen l -> l = slice l 0 4 ++ slice l 4 (off - 4) ++ slice l off (zlen l - off)).
  { intros l Hl. rewrite (cut3 l 4 (off - 4)) at 1 by lia. replace (4 + (off - 4)) with off by lia. reflexivity. }
  rewrite (C x) by lia. rewrite (C y) by lia. rewrite E. apply word_mid.
  - apply zlen_eq. rewrite !zlen_slice by lia. reflexivity.
  - rewrite zlen_slice by lia. lia.
  - rewrite !zlen_slice by lia. lia.
Qed.

Lemma slice_head : forall (l l' : list byte) a b n, 0 <= a -> 0 <= b -> a + b <= n -> slice l 0 n = slice l' 0 n -> slice l a b = slice l' a b.
Proof.
  intros l l' a b n Ha Hb Hn E. assert (Q : forall z : list byte, slice z a b = slice (slice z 0 n) a b).
  { intros z. rewrite slice0. unfold slice. rewrite skipn_firstn_comm, firstn_firstn. f_equal. lia. }
  rewrite (Q l), (Q l'), E. reflexivity.
Qed.

Lemma slice_mid : forall (a b c : list byte) off n, zlen a = off -> zlen b = n -> slice (a ++ b ++ c) off n = b.
Proof.
  intros a b c off n HA HB. unfold slice. rewrite skipn_app. replace (Z.to_nat off - List.length a)%nat with O by (unfold zlen in *; lia).
  rewrite skipn_all2 by (unfold zlen in *; lia). cbn [skipn app]. rewrite firstn_app. replace (Z.to_nat n - List.length b)%nat with O by (unfold zlen in *; lia).
  rewrite firstn_O, app_nil_r. apply firstn_all2. unfold zlen in *. lia.
Qed.
Lemma slice_start : forall (a c : list byte) n, zlen a = n -> slice (a ++ c) 0 n = a.
Proof. intros a c n HA. exact (slice_mid [] a c 0 n eq_refl HA). Qed.
Lemma slice_end : forall (a b c : list byte) off n, zlen a + zlen b = off -> zlen c = n -> slice (a ++ b ++ c) off n = c.
Proof. intros a b c off n HA HC. rewrite app_assoc, <- (app_nil_r c) at 1. apply slice_mid; [rewrite zlen_app; exact HA|exact HC]. Qed.

(** The bytes of each block of the texture (spec: 8 for BC1, 16 otherwise). *)
Definition block_of (i : dds_info) : Z := match i_format i with DBC1 => 8 | _ => 16 end.

Lemma dds_damage : forall (St Er : Type) (show : Er -> string) (c1 c2 : cfg) (v1 v2 : env) (t : bundle St Er)
    (x out : list byte) (st st' : St) (y : list byte) (i : dds_info) (z out2 : list byte),
  supported c1 -> supported c2 -> parse_dds (c_debug c1) x = Ok (Some i) ->
  (c_debug c1 = true \/ c_debug c2 = true -> 0 < i_data_length i) -> (c_debug c2 = true -> c_debug c1 = false -> levels_fit x) ->
  2 ^ 32 - 1 <= usize_max v1 ->
  dds_transform_bundle show c1 v1 t x out st = Ok (ROk tt, y, st') ->
  let off := i_data_offset i in let n := i_data_length i in let size := block_of i in
  slice z 0 off = slice y 0 off -> off + n <= zlen z -> zlen z <= usize_max v2 -> zlen out2 = zlen z ->
  exists o, dds_untransform c2 v2 z out2 = Ok (ROk tt, o) /\ zlen o = zlen z /\ slice o 0 off = slice x 0 off /\
    slice o (off + n) (zlen z - (off + n)) = slice z (off + n) (zlen z - (off + n)) /\
    damaged_blocks (Z.to_nat size) (slice x off n) (slice o off n) <= damaged_bytes (slice y off n) (slice z off n) <=
    size * damaged_blocks (Z.to_nat size) (slice x off n) (slice o off n).
Proof.
  intros St Er show c1 c2 v1 v2 t x out st st' y i z out2 K1 K2 P HD HF HU1 E off n size HZ Hz HU2 Lo.
  destruct (transform_success show c1 v1 t x out st y st' i K1 P ltac:(auto) HU1 E) as (k & s & FM & _ & Hm & Hlen & Hout & _ & Y).
  destruct (parse_dds_facts _ _ _ P) as (HM & P').
  destruct (parse_facts _ _ _ P') as (_ & _ & _ & _ & Hn & Ho & Hx).
  fold off n in FM, Hm, Hlen, Y, Hn, Ho, Hx, HD.
  assert (SZ : size = codec_block k) by (unfold size, block_of; rewrite FM; destruct k; reflexivity).
  set (T := slice x off n) in *. set (H := slice x 4 (off - 4)) in *. set (L := texture_layout k s T) in *.
  set (h := u32_bytes (codec_header k s)) in *. assert (Lh : zlen h = 4) by reflexivity.
  assert (LT : zlen T = n) by (apply zlen_slice; lia). assert (LH : zlen H = off - 4) by (apply zlen_slice; lia).
  assert (LL : zlen L = n) by (unfold L, zlen; rewrite layout_len by (rewrite LT; exact Hm); exact LT).
  set (L' := slice z off n). set (W := slice z (off + n) (zlen z - (off + n))).
  assert (LL' : zlen L' = n) by (apply zlen_slice; lia). assert (LW : zlen W = zlen z - (off + n)) by (apply zlen_slice; lia).
  assert (YH : slice y 0 off = h ++ H) by (rewrite Y, app_assoc; apply slice_start; rewrite zlen_app; lia).
  assert (YL : slice y off n = L) by (rewrite Y, app_assoc; apply slice_mid; [rewrite zlen_app; lia|exact LL]).
  assert (ZC : z = h ++ H ++ L' ++ W).
  { rewrite (cut3 z off n) at 1 by lia. rewrite HZ, YH, <- app_assoc. reflexivity. }
  set (x' := slice x 0 off ++ T ++ W).
  assert (LX0 : zlen (slice x 0 off) = off) by (apply zlen_slice; lia).
  assert (LX : zlen x' = zlen z) by (unfold x'; rewrite !zlen_app; lia).
  assert (X0 : slice x' 0 off = slice x 0 off) by (apply slice_start; exact LX0).
  assert (X4 : slice x' 4 (off - 4) = H) by (apply (slice_head _ _ _ _ off); [lia..|exact X0]).
  assert (XW : slice x' (off + n) (zlen x' - (off + n)) = W) by (apply slice_end; lia).
  assert (PX : parse_dds (c_debug c2) x' = Ok (Some i)).
  { unfold parse_dds. replace (likely_dds x') with true.
    - cbn [negb]. apply (parse_same _ x); [exact (parse_other _ _ _ _ P' HF)|fold off; lia|]. fold off.
      apply header_word; [lia|fold H; exact X4|lia].
    - rewrite likely_eq. assert (MG : has_magic x' = true); [|rewrite MG; lia].
      rewrite <- HM. unfold has_magic. f_equal.
      rewrite <- (word_firstn (Z.to_nat off) x') by lia. rewrite <- (word_firstn (Z.to_nat off) x) by lia.
      rewrite <- !slice0, X0. reflexivity. }
  destruct (restore c2 (c_debug c2) v2 x' out2 L' i k s K2 PX) as (T' & LT' & ET & R); fold off n; try lia.
  fold off n in R, LT'. rewrite X4, XW, X0 in R. fold h in R. rewrite <- ZC in R.
  eexists. split; [exact R|].
  assert (SK : skipn (List.length x') out2 = []) by (apply skipn_all2; unfold zlen in *; lia). rewrite SK, app_nil_r.
  assert (LZ : zlen (slice x 0 off ++ T' ++ W) = zlen z) by (rewrite !zlen_app; lia).
  split; [exact LZ|]. split; [apply slice_start; exact LX0|]. split; [apply slice_end; lia|].
  assert (OT : slice (slice x 0 off ++ T' ++ W) off n = T') by (apply slice_mid; [exact LX0|exact LT']).
  rewrite OT, YL, SZ. unfold L. rewrite <- ET. apply layout_damage; [rewrite LT; exact Hm|lia].
Qed.

Lemma no_damage : forall a b : list byte, List.length a = List.length b -> damaged_bytes a b = 0 -> a = b.
Proof.
  induction a as [|x a IH]; intros [|y b] L D; try discriminate L; [reflexivity|]. unfold damaged_bytes in *. cbn [combine filter fst snd] in D.
  destruct (Byte.eqb x y) eqn:E; cbn [negb] in D.
  - apply Byte.byte_dec_bl in E. subst y. f_equal. apply IH; [injection L as L; exact L|exact D].
  - rewrite zlen_cons in D. match type of D with 1 + zlen ?l = 0 => pose proof (zlen_nonneg _ l) end. lia.
Qed.
Lemma same_blocks : forall k a, damaged_blocks k a a = 0.
Proof.
  intros k a. unfold damaged_blocks. generalize (blocks k a) as l. induction l as [|b l IH]; [reflexivity|]. cbn [combine filter fst snd].
  destruct (list_eq_dec Byte.byte_eq_dec b b); [exact IH|congruence].
Qed.


Lemma no_damaged_blocks : forall k a b, (0 < k)%nat -> (List.length a mod k = 0)%nat -> List.length a = List.length b -> damaged_blocks k a b = 0 -> a = b.
Proof.
  intros k a b Hk Hm L D. assert (E : blocks k a = blocks k b).
  { assert (LB : List.length (blocks k a) = List.length (blocks k b)) by (unfold blocks; rewrite !chunks_length, L; reflexivity).
    unfold damaged_blocks in D. revert LB D. generalize (blocks k b) as q. generalize (blocks k a) as p. clear.
    induction p as [|x p IH]; intros [|y q] L D; try discriminate L; [reflexivity|]. cbn [combine filter fst snd] in D.
    destruct (list_eq_dec Byte.byte_eq_dec x y) as [->|].
    - f_equal. apply IH; [injection L as L; exact L|exact D].
    - rewrite zlen_cons in D. match type of D with 1 + zlen ?l = 0 => pose proof (zlen_nonneg _ l) end. lia. }
  assert (C : forall l, (List.length l mod k = 0)%nat -> List.concat (blocks k l) = l).
  { intros l H. unfold blocks. apply concat_chunks. pose proof (Nat.div_mod (List.length l) k ltac:(lia)). lia. }
  rewrite <- (C a Hm), <- (C b), E; [reflexivity|]. rewrite <- L. exact Hm.
Qed.
Lemma same_bytes : forall a, damaged_bytes a a = 0.
Proof.
  intros a. unfold damaged_bytes. induction a as [|b l IH]; [reflexivity|]. cbn [combine filter fst snd].
  assert (Q : Byte.eqb b b = true) by (apply Byte.byte_dec_lb; reflexivity). rewrite Q. exact IH.
Qed.

Lemma transformed_parts : forall (St Er : Type) (show : Er -> string) (c1 : cfg) (v1 : env) (t : bundle St Er)
    (x out : list byte) (st st' : St) (y : list byte) (i : dds_info),
  supported c1 -> parse_dds (c_debug c1) x = Ok (Some i) -> (c_debug c1 = true -> 0 < i_data_length i) -> 2 ^ 32 - 1 <= usize_max v1 ->
  dds_transform_bundle show c1 v1 t x out st = Ok (ROk tt, y, st') ->
  let off := i_data_offset i in let n := i_data_length i in
  128 <= off <= 148 /\ 0 <= n < 2 ^ 32 /\ n mod block_of i = 0 /\ off + n <= zlen x <= zlen y /\ slice y 4 (off - 4) = slice x 4 (off - 4) /\
  slice y (off + n) (zlen x - (off + n)) = slice x (off + n) (zlen x - (off + n)).
Proof.
  intros St Er show c1 v1 t x out st st' y i K1 P HD HU1 E off n.
  destruct (transform_success show c1 v1 t x out st y st' i K1 P HD HU1 E) as (k & s & FM & _ & Hm & Hlen & Hout & _ & Y).
  destruct (parse_facts _ _ _ (proj2 (parse_dds_facts _ _ _ P))) as (_ & _ & _ & _ & Hn & Ho & Hx).
  fold off n in FM, Hm, Hlen, Y, Hn, Ho, Hx, HD.
  assert (SZ : block_of i = codec_block k) by (unfold block_of; rewrite FM; destruct k; reflexivity). rewrite SZ.
  assert (LT : zlen (slice x off n) = n) by (apply zlen_slice; lia). assert (LH : zlen (slice x 4 (off - 4)) = off - 4) by (apply zlen_slice; lia).
  assert (LR : zlen (slice x (off + n) (zlen x - (off + n))) = zlen x - (off + n)) by (apply zlen_slice; lia).
  assert (Lh : zlen (u32_bytes (codec_header k s)) = 4) by reflexivity.
  assert (LL : zlen (texture_layout k s (slice x off n)) = n) by (unfold zlen at 1; rewrite layout_len by (rewrite LT; exact Hm); exact LT).
  split; [exact Ho|]. split; [exact Hn|]. split; [exact Hm|]. split.
  { rewrite Y, !zlen_app. pose proof (zlen_nonneg _ (skipn (List.length x) out)). lia. }
  split; rewrite Y.
  - apply slice_mid; [exact Lh|exact LH].
  - rewrite app_assoc, (app_assoc _ (texture_layout _ _ _)). apply slice_mid; [rewrite !zlen_app; lia|exact LR].
Qed.

(** Restoring a transformed file to the original means nothing was damaged. *)
Lemma dds_damage_noticed : forall (St Er : Type) (show : Er -> string) (c1 c2 : cfg) (v1 v2 : env) (t : bundle St Er)
    (x out : list byte) (st st' : St) (y : list byte) (i : dds_info) (z out2 : list byte),
  supported c1 -> supported c2 -> parse_dds (c_debug c1) x = Ok (Some i) ->
  (c_debug c1 = true \/ c_debug c2 = true -> 0 < i_data_length i) -> (c_debug c2 = true -> c_debug c1 = false -> levels_fit x) ->
  2 ^ 32 - 1 <= usize_max v1 ->
  dds_transform_bundle show c1 v1 t x out st = Ok (ROk tt, y, st') ->
  slice z 0 (i_data_offset i) = slice y 0 (i_data_offset i) -> zlen z = zlen x -> zlen z <= usize_max v2 -> zlen out2 = zlen z ->
  dds_untransform c2 v2 z out2 = Ok (ROk tt, x) -> z = firstn (List.length x) y.
Proof.
  intros St Er show c1 c2 v1 v2 t x out st st' y i z out2 K1 K2 P HD HF HU1 E HZ LZ HU2 Lo R.
  destruct (transformed_parts _ _ show c1 v1 t x out st st' y i K1 P ltac:(auto) HU1 E) as (Ho & Hn & Hm & Hl & _ & YR).
  destruct (dds_damage _ _ show c1 c2 v1 v2 t x out st st' y i z out2 K1 K2 P HD HF HU1 E HZ ltac:(lia) HU2 Lo) as (o & R' & _ & _ & OR & DB).
  rewrite R in R'. injection R' as <-. rewrite same_blocks in DB.
  set (off := i_data_offset i) in *. set (n := i_data_length i) in *.
  assert (ST : slice y off n = slice z off n).
  { apply no_damage; [apply zlen_eq; rewrite !zlen_slice by lia; reflexivity|]. lia. }
  rewrite (cut3 z off n) by lia. rewrite <- OR, HZ, <- ST, LZ, <- YR.
  set (y' := firstn (List.length x) y). assert (LY : zlen y' = zlen x) by (unfold y', zlen in *; rewrite firstn_length; lia).
  rewrite (cut3 y' off n) by lia. rewrite LY.
  assert (Q : forall a b, 0 <= a -> 0 <= b -> a + b <= zlen x -> slice y' a b = slice y a b).
  { intros a b Ha Hb Hab. apply (slice_head _ _ _ _ (zlen x)); try lia. unfold y'. rewrite !slice0. unfold zlen. rewrite Nat2Z.id, firstn_firstn.
    f_equal. lia. }
  rewrite !Q by lia. reflexivity.
Qed.

(** A transformed file cut behind its texture gives the original cut at the same place. *)
Lemma dds_cut_behind : forall (St Er : Type) (show : Er -> string) (c1 c2 : cfg) (v1 v2 : env) (t : bundle St Er)
    (x out : list byte) (st st' : St) (y : list byte) (i : dds_info) (m : nat) (out2 : list byte),
  supported c1 -> supported c2 -> parse_dds (c_debug c1) x = Ok (Some i) ->
  (c_debug c1 = true \/ c_debug c2 = true -> 0 < i_data_length i) -> (c_debug c2 = true -> c_debug c1 = false -> levels_fit x) ->
  2 ^ 32 - 1 <= usize_max v1 -> zlen x <= usize_max v2 ->
  dds_transform_bundle show c1 v1 t x out st = Ok (ROk tt, y, st') ->
  i_data_offset i + i_data_length i <= Z.of_nat m <= zlen x -> zlen out2 = Z.of_nat m ->
  dds_untransform c2 v2 (firstn m y) out2 = Ok (ROk tt, firstn m x).
Proof.
  intros St Er show c1 c2 v1 v2 t x out st st' y i m out2 K1 K2 P HD HF HU1 HU2 E Hm Lo.
  destruct (transformed_parts _ _ show c1 v1 t x out st st' y i K1 P ltac:(auto) HU1 E) as (Ho & Hn & Hb & Hl & _ & YR).
  set (off := i_data_offset i) in *. set (n := i_data_length i) in *.
  assert (LM : forall l : list byte, zlen x <= zlen l -> zlen (firstn m l) = Z.of_nat m) by (intros l H; unfold zlen in *; rewrite firstn_length; lia).
  assert (Q : forall (l : list byte) a b, 0 <= a -> 0 <= b -> a + b <= Z.of_nat m -> slice (firstn m l) a b = slice l a b).
  { intros l a b Ha Hbb Hab. apply (slice_head _ _ _ _ (Z.of_nat m)); try lia. rewrite !slice0, Nat2Z.id, firstn_firstn. f_equal. lia. }
  assert (Ly := LM y ltac:(lia)). assert (Lx := LM x ltac:(lia)).
  destruct (dds_damage _ _ show c1 c2 v1 v2 t x out st st' y i (firstn m y) out2 K1 K2 P HD HF HU1 E) as (o & R & LO & OH & OR & DB); fold off n; try lia.
  { apply Q; lia. }
  rewrite R. do 2 f_equal. fold off n in OH, OR, DB. rewrite Q, same_bytes in DB by lia. rewrite Ly in LO, OR.
  rewrite (cut3 o off n), (cut3 (firstn m x) off n) by lia. rewrite Lx, LO, OR, OH, !Q by lia. f_equal. f_equal.
  - symmetry. apply (no_damaged_blocks (Z.to_nat (block_of i))).
    + unfold block_of. destruct (i_format i); lia.
    + assert (LT : zlen (slice x off n) = n) by (apply zlen_slice; lia).
      unfold zlen in LT. apply Nat2Z.inj. rewrite Nat2Z.inj_mod, LT, Z2Nat.id by (unfold block_of; destruct (i_format i); lia). exact Hb.
    + apply zlen_eq. rewrite !zlen_slice by lia. reflexivity.
    + unfold damaged_blocks in *. match goal with |- zlen ?l = 0 => pose proof (zlen_nonneg _ l) end. lia.
  - assert (Q2 : slice y (off + n) (Z.of_nat m - (off + n)) = slice x (off + n) (Z.of_nat m - (off + n))); [|exact Q2].
    assert (S : forall l : list byte, slice l (off + n) (Z.of_nat m - (off + n)) = firstn (Z.to_nat (Z.of_nat m - (off + n))) (slice l (off + n) (zlen x - (off + n)))).
    { intros l. unfold slice. rewrite firstn_firstn. f_equal. lia. }
    rewrite S, YR, <- S. reflexivity.
Qed.

(** A transformed file cut before the end of its texture is refused, and nothing is written. *)
Lemma dds_cut : forall (St Er : Type) (show : Er -> string) (c1 c2 : cfg) (v1 v2 : env) (t : bundle St Er)
    (x out : list byte) (st st' : St) (y : list byte) (i : dds_info) (m : nat) (out2 : list byte),
  supported c1 -> parse_dds (c_debug c1) x = Ok (Some i) ->
  (c_debug c1 = true -> 0 < i_data_length i) -> (c_debug c2 = true -> c_debug c1 = false -> levels_fit x) ->
  2 ^ 32 - 1 <= usize_max v1 -> zlen x <= usize_max v2 ->
  dds_transform_bundle show c1 v1 t x out st = Ok (ROk tt, y, st') ->
  Z.of_nat m < i_data_offset i + i_data_length i ->
  exists e, dds_untransform c2 v2 (firstn m y) out2 = Ok (RErr e, out2).
Proof.
  intros St Er show c1 c2 v1 v2 t x out st st' y i m out2 K1 P HD HF HU1 HU2 E Hm.
  destruct (transformed_parts _ _ show c1 v1 t x out st st' y i K1 P HD HU1 E) as (Ho & Hn & Hb & Hl & YH & _).
  set (off := i_data_offset i) in *. set (n := i_data_length i) in *.
  assert (Ly : zlen (firstn m y) = Z.of_nat m) by (unfold zlen in *; rewrite firstn_length; lia).
  assert (Lx : zlen (firstn m x) = Z.of_nat m) by (unfold zlen in *; rewrite firstn_length; lia).
  unfold dds_untransform. rewrite Ly. destruct (Z.of_nat m <? 4); [eexists; reflexivity|]. destruct (zlen out2 <? Z.of_nat m); [eexists; reflexivity|].
  pose proof (parse_other _ (c_debug c2) _ _ (proj2 (parse_dds_facts _ _ _ P)) HF) as P2.
  assert (W : forall o, 4 <= o -> o + 4 <= off -> word y o = word x o) by (apply header_word; [lia|exact YH|lia]).
  destruct (Z.of_nat m <? off) eqn:C.
  - rewrite (parse_cut (c_debug c2) x i m P2 ltac:(fold off; lia) Lx y W Ly). eexists; reflexivity.
  - rewrite (parse_same (c_debug c2) x (firstn m y) i P2); [|fold off; lia|fold off; intros o H1 H2; rewrite word_firstn by lia; apply W; assumption].
    cbn [bind]. fold off n. unfold usize_add. replace (off + n <=? usize_max v2) with true by lia. cbn [bind].
    replace (Z.of_nat m <? off + n) with true by lia. eexists; reflexivity.
Qed.

(** The texture functions. *)
Lemma firstn_len_app : forall (a b : list byte) n, List.length a = n -> firstn n (a ++ b) = a.
Proof. intros a b n <-. rewrite firstn_app, Nat.sub_diag, firstn_O, app_nil_r. apply firstn_all. Qed.
Lemma bc1_damage : forall (c1 c2 : cfg) (s : settings) (x out1 y z out2 : list byte),
  cpu_ok c1 -> cpu_ok c2 -> (c_debug c1 = true \/ c_debug c2 = true -> split_colour_endpoints s = true -> x <> []) ->
  zlen x mod 8 = 0 -> zlen x <= zlen out1 -> transform_bc1 c1 s x out1 = Ok (ROk tt, y) ->
  zlen z = zlen x -> zlen z <= zlen out2 ->
  exists o, untransform_bc1 c2 s z out2 = Ok (ROk tt, o) /\
    damaged_blocks 8 x (firstn (List.length x) o) <= damaged_bytes (firstn (List.length x) y) z <= 8 * damaged_blocks 8 x (firstn (List.length x) o).
Proof.
  intros c1 c2 s x out1 y z out2 K1 K2 HD Hm Ho E Lz Ho2.
  rewrite (bc1_slice c1 s x out1 K1 ltac:(auto) Hm Ho) in E. injection E as <-.
  destruct (unbc1_slice c2 s z out2 K2) as (o & R & LO & EO); try lia.
  { intros D1 D2 ->. destruct x; [|cbn in Lz; unfold zlen in Lz; cbn in Lz; lia]. exact (HD (or_intror D1) D2 eq_refl). }
  eexists. split; [exact R|]. unfold zlen in Lz. rewrite firstn_len_app by lia.
  destruct (bc1_fam (decorrelation_mode s) (split_colour_endpoints s)) as (sht & shu & FM).
  rewrite firstn_len_app by (apply (fam_len _ _ _ _ _ _ FM); unfold zlen in *; lia). rewrite <- EO at 1 2.
  exact (fam_damage _ _ _ _ _ _ FM ltac:(lia) (bc1_wpos _) x o ltac:(unfold zlen in *; lia) ltac:(lia)).
Qed.
Lemma bc2_damage : forall (c1 c2 : cfg) (s : settings) (x out1 y z out2 : list byte),
  cpu_ok c1 -> cpu_ok c2 -> (c_avx512bw c1 = true -> c_avx512vl c1 = true) ->
  zlen x mod 16 = 0 -> zlen x <= zlen out1 -> transform_bc2 c1 s x out1 = Ok (ROk tt, y) ->
  zlen z = zlen x -> zlen z <= zlen out2 ->
  exists o, untransform_bc2 c2 s z out2 = Ok (ROk tt, o) /\
    damaged_blocks 16 x (firstn (List.length x) o) <= damaged_bytes (firstn (List.length x) y) z <= 16 * damaged_blocks 16 x (firstn (List.length x) o).
Proof.
  intros c1 c2 s x out1 y z out2 K1 K2 HV Hm Ho E Lz Ho2.
  rewrite (bc2_slice c1 s x out1 K1 HV Hm Ho) in E. injection E as <-.
  destruct (unbc2_slice c2 s z out2 K2) as (o & R & LO & EO); try lia.
  eexists. split; [exact R|]. unfold zlen in Lz. rewrite firstn_len_app by lia.
  destruct (bc2_fam (decorrelation_mode s) (split_colour_endpoints s)) as (sht & shu & FM).
  rewrite firstn_len_app by (apply (fam_len _ _ _ _ _ _ FM); unfold zlen in *; lia). rewrite <- EO at 1 2.
  exact (fam_damage _ _ _ _ _ _ FM ltac:(lia) (bc2_wpos _) x o ltac:(unfold zlen in *; lia) ltac:(lia)).
Qed.
Lemma bc3_damage : forall (c1 c2 : cfg) (s : settings3) (x out1 y z out2 : list byte),
  cpu_ok c1 -> cpu_ok c2 -> (c_debug c1 = true \/ c_debug c2 = true -> split_alpha_endpoints s = true -> x <> []) ->
  zlen x mod 16 = 0 -> zlen x <= zlen out1 -> transform_bc3 c1 s x out1 = Ok (ROk tt, y) ->
  zlen z = zlen x -> zlen z <= zlen out2 ->
  exists o, untransform_bc3 c2 s z out2 = Ok (ROk tt, o) /\
    damaged_blocks 16 x (firstn (List.length x) o) <= damaged_bytes (firstn (List.length x) y) z <= 16 * damaged_blocks 16 x (firstn (List.length x) o).
Proof.
  intros c1 c2 s x out1 y z out2 K1 K2 HD Hm Ho E Lz Ho2.
  rewrite (bc3_slice c1 s x out1 K1 ltac:(auto) Hm Ho) in E. injection E as <-.
  destruct (unbc3_slice c2 s z out2 K2) as (o & R & LO & EO); try lia.
  { intros D1 D2 ->. destruct x; [|cbn in Lz; unfold zlen in Lz; cbn in Lz; lia]. exact (HD (or_intror D1) D2 eq_refl). }
  eexists. split; [exact R|]. unfold zlen in Lz. rewrite firstn_len_app by lia.
  destruct (bc3_fam (decorrelation_mode3 s) (split_alpha_endpoints s) (split_colour_endpoints3 s)) as (sht & shu & FM).
  rewrite firstn_len_app by (apply (fam_len _ _ _ _ _ _ FM); unfold zlen in *; lia). rewrite <- EO at 1 2.
  exact (fam_damage _ _ _ _ _ _ FM ltac:(lia) (bc3_wpos _ _) x o ltac:(unfold zlen in *; lia) ltac:(lia)).
Qed.
