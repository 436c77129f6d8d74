(** DDS headers. *)
From Verif Require Import Base.Bytes Base.Res Model.Color565 Model.Ycc Model.Kernel Model.Transform Model.Auto Model.Builders Model.Embed Model.Bundle Model.Dds.
From Verif Require Import Spec.Dds.
From Coq Require Import ZifyBool.

Lemma word_bound : forall d o, 0 <= word d o < 2 ^ 32.
Proof. intros. apply u32le_bound. Qed.
Lemma read_ok : forall d o, 0 <= o -> o + 4 <= zlen d -> read_u32_at d o = Ok (word d o).
Proof. intros d o H1 H2. unfold read_u32_at. replace ((0 <=? o) && (o + 4 <=? zlen d)) with true by lia. reflexivity. Qed.

Lemma land_bit : forall x n, 0 <= n -> negb (Z.land x (2 ^ n) =? 0) = Z.testbit x n.
Proof.
  intros x n Hn. destruct (Z.testbit x n) eqn:E.
  - apply Bool.negb_true_iff. apply Z.eqb_neq. intros H.
    assert (B : Z.testbit (Z.land x (2 ^ n)) n = true) by (rewrite Z.land_spec, E, Z.pow2_bits_true by lia; reflexivity).
    rewrite H, Z.bits_0 in B. discriminate.
  - apply Bool.negb_false_iff. apply Z.eqb_eq. apply Z.bits_inj'. intros m Hm. rewrite Z.land_spec, Z.bits_0.
    destruct (Z.eq_dec m n) as [->|N]; [rewrite E; reflexivity|]. rewrite Z.pow2_bits_false by lia. apply Bool.andb_false_r.
Qed.
Lemma land_lor_zero : forall x a b, 0 <= a -> 0 <= b -> 0 <= x -> (Z.land x (Z.lor a b) =? 0) = (Z.land x a =? 0) && (Z.land x b =? 0).
Proof.
  intros x a b Ha Hb Hx. rewrite Z.land_lor_distr_r.
  destruct (Z.eqb_spec (Z.land x a) 0) as [->|Na]; cbn [andb]; [rewrite Z.lor_0_l; reflexivity|].
  apply Z.eqb_neq. intros H. apply Z.lor_eq_0_iff in H. tauto.
Qed.

(** ** The length *)
Definition opt0 (o : option Z) : Z := match o with Some n => n | None => 0 end.

Lemma mul_ok : forall d a b, 0 <= a * b < 2 ^ 32 -> u32_mul d a b = Ok (a * b).
Proof. intros d a b H. unfold u32_mul. replace (a * b <? 2 ^ 32) with true by lia. reflexivity. Qed.
Lemma mul_release : forall a b, 0 <= a -> 0 <= b -> exists p, u32_mul false a b = Ok p /\ 0 <= p < 2 ^ 32.
Proof.
  intros a b Ha Hb. unfold u32_mul. destruct (a * b <? 2 ^ 32) eqn:E; eexists; (split; [reflexivity|]).
  - nia.
  - apply Z.mod_pos_bound. lia.
Qed.
Lemma mul_mono : forall a b p, u32_mul true a b = Ok p -> u32_mul false a b = Ok p.
Proof. intros a b p. unfold u32_mul. destruct (a * b <? 2 ^ 32); [auto|discriminate]. Qed.
Lemma mul_no_ub : forall d a b why, u32_mul d a b <> Ub why.
Proof. intros [] a b why; unfold u32_mul; destruct (a * b <? 2 ^ 32); discriminate. Qed.

Definition lvl (debug : bool) (k : Z) (w h : Z) : res Z := do p <- u32_mul debug w h ;; u32_mul debug p k.
Definition blvl (debug : bool) (k : Z) (w h : Z) : res Z := do p <- u32_mul debug (div_ceil w 4) (div_ceil h 4) ;; u32_mul debug p k.

Lemma div_ceil_spec : forall a, 0 <= a -> div_ceil a 4 = (a + 3) / 4.
Proof. intros a Ha. unfold div_ceil. destruct (0 <? a mod 4) eqn:E; lia. Qed.

Lemma lvl_ok : forall d k w h, 0 < k -> 0 <= w -> 0 <= h -> k * (w * h) < 2 ^ 32 -> lvl d k w h = Ok (k * (w * h)).
Proof.
  intros d k w h Hk Hw Hh H. unfold lvl. assert (0 <= w * h) by nia. assert (w * h <= k * (w * h)) by nia.
  rewrite mul_ok by lia. cbn [bind]. rewrite mul_ok by (rewrite Z.mul_comm; lia). f_equal. ring.
Qed.
Lemma blvl_ok : forall d k w h, 0 < k -> 0 <= w -> 0 <= h -> k * (((w + 3) / 4) * ((h + 3) / 4)) < 2 ^ 32 ->
  blvl d k w h = Ok (k * (((w + 3) / 4) * ((h + 3) / 4))).
Proof.
  intros d k w h Hk Hw Hh H. unfold blvl. rewrite !div_ceil_spec by lia. apply (lvl_ok d k ((w + 3) / 4) ((h + 3) / 4)); lia.
Qed.
Lemma lvl_release : forall k w h, 0 <= k -> 0 <= w -> 0 <= h -> exists n, lvl false k w h = Ok n /\ 0 <= n < 2 ^ 32.
Proof.
  intros k w h Hk Hw Hh. unfold lvl. destruct (mul_release w h Hw Hh) as (p & -> & Hp). cbn [bind]. apply mul_release; lia.
Qed.
Lemma blvl_release : forall k w h, 0 <= k -> 0 <= w -> 0 <= h -> exists n, blvl false k w h = Ok n /\ 0 <= n < 2 ^ 32.
Proof. intros k w h Hk Hw Hh. unfold blvl. rewrite !div_ceil_spec by lia. apply (lvl_release k ((w + 3) / 4) ((h + 3) / 4)); lia. Qed.

Lemma dim_step : forall n i, 0 <= n -> 0 <= i -> Z.max (dim n i / 2) 1 = dim n (i + 1).
Proof.
  intros n i Hn Hi. unfold dim at 2. replace (i + 1 =? 0) with false by lia. rewrite Z.pow_add_r by lia. change (2 ^ 1) with 2.
  rewrite <- Z.div_div by (try apply Z.pow_nonzero; lia). unfold dim.
  destruct (Z.eqb_spec i 0) as [->|N]; [rewrite Z.pow_0_r, Z.div_1_r; lia|].
  assert (0 < 2 ^ i) by (apply Z.pow_pos_nonneg; lia). assert (0 <= n / 2 ^ i) by (apply Z.div_pos; lia). lia.
Qed.
Lemma dim_nonneg : forall n i, 0 <= n -> 0 <= dim n i.
Proof. intros n i Hn. unfold dim. destruct (i =? 0); lia. Qed.

Lemma mip_sum : forall f L w h n i total, 0 <= w -> 0 <= h -> 0 <= i -> 0 <= total <= 2 ^ 32 - 1 ->
  (forall j, i <= j < i + Z.of_nat n -> f (dim w j) (dim h j) = Ok (L j) /\ 0 <= L j) ->
  mip_levels n f (dim w i) (dim h i) total = Ok (Z.min (total + fold_right Z.add 0 (map L (zseq i n))) (2 ^ 32 - 1)).
Proof.
  intros f L w h n. induction n as [|n IH]; intros i total Hw Hh Hi Ht HL.
  - cbn [mip_levels zseq map fold_right]. f_equal. lia.
  - cbn [mip_levels zseq map fold_right]. destruct (HL i ltac:(lia)) as (E & Hp). rewrite E. cbn [bind].
    rewrite !dim_step by lia. rewrite (IH (i + 1)); [|lia|lia|lia| |intros j Hj; apply HL; lia].
    + f_equal. unfold u32_saturating_add.
      assert (0 <= fold_right Z.add 0 (map L (zseq (i + 1) n))).
      { assert (P : Forall (fun x => 0 <= x) (map L (zseq (i + 1) n))).
        { rewrite Forall_map. apply Forall_forall. intros j Hj. apply in_zseq in Hj. apply HL. lia. }
        induction P; cbn [fold_right]; lia. }
      lia.
    + unfold u32_saturating_add. lia.
Qed.

Lemma mip_release : forall f n w h total, (forall w h, 0 <= w -> 0 <= h -> exists s, f w h = Ok s /\ 0 <= s < 2 ^ 32) ->
  0 <= w -> 0 <= h -> 0 <= total < 2 ^ 32 -> exists s, mip_levels n f w h total = Ok s /\ 0 <= s < 2 ^ 32.
Proof.
  intros f n. induction n as [|n IH]; intros w h total Hf Hw Hh Ht; [eexists; split; [reflexivity|lia]|].
  cbn [mip_levels]. destruct (Hf w h Hw Hh) as (s & -> & Hs). cbn [bind]. apply IH; [exact Hf|lia|lia|]. unfold u32_saturating_add. lia.
Qed.
Lemma mip_mono : forall f g n w h total s, (forall w h s, f w h = Ok s -> g w h = Ok s) ->
  mip_levels n f w h total = Ok s -> mip_levels n g w h total = Ok s.
Proof.
  intros f g n. induction n as [|n IH]; intros w h total s H E; [exact E|]. cbn [mip_levels] in *.
  destruct (f w h) as [p| |] eqn:F; cbn [bind] in E; try discriminate. rewrite (H _ _ _ F). cbn [bind]. exact (IH _ _ _ _ H E).
Qed.
Lemma mip_no_ub : forall f n w h total why, (forall w h why, f w h <> Ub why) -> mip_levels n f w h total <> Ub why.
Proof.
  intros f n. induction n as [|n IH]; intros w h total why H; [discriminate|]. cbn [mip_levels].
  specialize (H w h) as Hwh. destruct (f w h) as [p|y|y] eqn:F; cbn [bind]; [apply IH; exact H|discriminate|].
  exfalso. exact (Hwh y eq_refl).
Qed.
Lemma lvl_mono : forall k w h s, lvl true k w h = Ok s -> lvl false k w h = Ok s.
Proof.
  intros k w h s H. unfold lvl in *. destruct (u32_mul true w h) as [p| |] eqn:E; cbn [bind] in H; try discriminate.
  rewrite (mul_mono _ _ _ E). cbn [bind]. apply mul_mono. exact H.
Qed.
Lemma lvl_no_ub : forall d k w h why, lvl d k w h <> Ub why.
Proof.
  intros d k w h why. unfold lvl. pose proof (mul_no_ub d w h) as A. destruct (u32_mul d w h) as [p|y|y]; cbn [bind]; [apply mul_no_ub|discriminate|].
  exfalso. exact (A y eq_refl).
Qed.

(** How the length is computed from a level function. *)
Inductive level_fun := NoLevels | Blocks (k : Z) | Pixels (k : Z).
Definition level_of (data : list byte) : level_fun :=
  match stated_format data with
  | DBC1 | DBC4 => Blocks 8
  | DBC2 | DBC3 | DBC5 | DBC6H | DBC7 => Blocks 16
  | DRGBA8888 | DBGRA8888 => Pixels 4
  | DBGR888 => Pixels 3
  | Unknown =>
      let f := word data 80 in
      if (Z.testbit f 6 || Z.testbit f 17 || Z.testbit f 9 || Z.testbit f 1)
         && (word data 88 mod 8 =? 0) && negb (word data 88 / 8 =? 0)
      then Pixels (word data 88 / 8) else NoLevels
  | NotADds => NoLevels
  end.
Definition run_level (debug : bool) (lf : level_fun) (w h : Z) : res Z :=
  match lf with NoLevels => Ok 0 | Blocks k => blvl debug k w h | Pixels k => lvl debug k w h end.
Definition run_length (debug : bool) (data : list byte) : res Z :=
  match level_of data with
  | NoLevels => Ok 0
  | lf => mip_levels (Z.to_nat (mip_count data)) (run_level debug lf) (word data 16) (word data 12) 0
  end.

Lemma stated_not : forall data, stated_format data <> NotADds.
Proof.
  intros data. unfold stated_format, dxgi_format, code_format, pixel_format.
  repeat match goal with |- (if ?b then _ else _) <> _ => destruct b end; discriminate.
Qed.

Lemma calc_pixels : forall debug w h n k, 0 < k ->
  calculate_data_length_for_pixel_formats debug w h n k = (do t <- mip_levels (Z.to_nat n) (lvl debug k) w h 0 ;; Ok (Some t)).
Proof. intros debug w h n k Hk. unfold calculate_data_length_for_pixel_formats. replace (k =? 0) with false by lia. reflexivity. Qed.

Lemma calc_blocks : forall debug f w h n k, block_size_of f = Some k ->
  calculate_data_length_for_block_compression debug f w h n = (do t <- mip_levels (Z.to_nat n) (blvl debug k) w h 0 ;; Ok (Some t)).
Proof. intros debug f w h n k Hk. destruct f; try discriminate Hk; injection Hk as <-; reflexivity. Qed.

Lemma calc_length : forall debug data, 128 <= zlen data ->
  (do o <- calculate_data_length debug (stated_format data) data ;; Ok (opt0 o)) = run_length debug data.
Proof.
  intros debug data H. unfold calculate_data_length.
  unfold DDS_FLAGS_OFFSET, DDS_HEIGHT_OFFSET, DDS_WIDTH_OFFSET, DDS_MIPMAP_COUNT_OFFSET. rewrite !read_ok by lia. cbn [bind].
  unfold DDSD_MIPMAPCOUNT. change 0x20000 with (2 ^ 17). rewrite land_bit by lia.
  rewrite (Z.max_comm (word data 28)). change (if Z.testbit (word data 8) 17 then Z.max 1 (word data 28) else 1) with (mip_count data).
  unfold run_length, level_of.
  pose proof (stated_not data) as N. destruct (stated_format data); try congruence;
    try (match goal with |- context[run_level debug (Blocks ?k)] => rewrite (calc_blocks debug _ _ _ _ k) by reflexivity; change (run_level debug (Blocks k)) with (blvl debug k) end;
         destruct (mip_levels _ _ _ _ _); reflexivity);
    try (match goal with |- context[run_level debug (Pixels ?k)] => rewrite calc_pixels by lia; change (run_level debug (Pixels k)) with (lvl debug k) end;
         destruct (mip_levels _ _ _ _ _); reflexivity).
  unfold calculate_uncompressed_data_length, DDS_PIXELFORMAT_FLAGS_OFFSET, DDS_PIXELFORMAT_RGBBITCOUNT_OFFSET. rewrite !read_ok by lia. cbn [bind].
  pose proof (word_bound data 0x50) as B. unfold DDPF_RGB, DDPF_LUMINANCE, DDPF_YUV, DDPF_ALPHA.
  rewrite !land_lor_zero by (try (apply Z.lor_nonneg; split); try (apply Z.lor_nonneg; split); lia).
  pose proof (land_bit (word data 0x50) 6 ltac:(lia)) as L6. pose proof (land_bit (word data 0x50) 17 ltac:(lia)) as L17.
  pose proof (land_bit (word data 0x50) 9 ltac:(lia)) as L9. pose proof (land_bit (word data 0x50) 1 ltac:(lia)) as L1.
  change (2 ^ 6) with 0x40 in L6. change (2 ^ 17) with 0x20000 in L17. change (2 ^ 9) with 0x200 in L9. change (2 ^ 1) with 0x2 in L1.
  change 80 with 0x50 in *. change 88 with 0x58 in *. rewrite <- L6, <- L17, <- L9, <- L1.
  rewrite <- !Bool.negb_andb. rewrite <- !Bool.andb_assoc.
  destruct ((Z.land (word data 80) 64 =? 0) && ((Z.land (word data 80) 131072 =? 0) && ((Z.land (word data 80) 512 =? 0) && (Z.land (word data 80) 2 =? 0)))); [reflexivity|].
  cbn [negb andb]. destruct (word data 88 mod 8 =? 0) eqn:E8; cbn [negb andb]; [|reflexivity].
  pose proof (word_bound data 88) as B88.
  destruct (word data 88 / 8 =? 0) eqn:EZ; cbn [negb].
  - unfold calculate_data_length_for_pixel_formats. rewrite EZ. reflexivity.
  - rewrite calc_pixels by lia. cbn [run_level]. change (run_level debug (Pixels (word data 88 / 8))) with (lvl debug (word data 88 / 8)). destruct (mip_levels _ _ _ _ _); reflexivity.
Qed.

(** ** The format *)
Lemma dxgi_eq : forall n, dxgi_to_format n = dxgi_format n.
Proof.
  intros n. unfold dxgi_to_format, dxgi_format, between. cbn [existsb].
  repeat match goal with |- (if ?a then ?x else _) = (if ?b then ?x else _) => replace a with b by lia; destruct b; [reflexivity|] end.
  reflexivity.
Qed.
Lemma code_eq : forall n, fourcc_to_format n = code_format n.
Proof.
  intros n. unfold fourcc_to_format, code_format. cbn [existsb].
  change (four "DXT1") with FOURCC_DXT1. change (four "DXT2") with FOURCC_DXT2. change (four "DXT3") with FOURCC_DXT3.
  change (four "DXT4") with FOURCC_DXT4. change (four "DXT5") with FOURCC_DXT5.
  change (four "BC4U") with FOURCC_BC4U. change (four "BC4S") with FOURCC_BC4S. change (four "ATI1") with FOURCC_ATI1.
  change (four "BC5U") with FOURCC_BC5U. change (four "BC5S") with FOURCC_BC5S. change (four "ATI2") with FOURCC_ATI2.
  repeat match goal with |- context[n =? ?k] => destruct (n =? k); cbn [orb]; try reflexivity end.
Qed.
Lemma pixel_eq : forall data, 128 <= zlen data -> detect_uncompressed_format data = Ok (pixel_format data).
Proof.
  intros data H. unfold detect_uncompressed_format, DDS_PIXELFORMAT_FLAGS_OFFSET, DDS_PIXELFORMAT_RGBBITCOUNT_OFFSET, DDS_PIXELFORMAT_RBITMASK_OFFSET,
    DDS_PIXELFORMAT_GBITMASK_OFFSET, DDS_PIXELFORMAT_BBITMASK_OFFSET, DDS_PIXELFORMAT_ABITMASK_OFFSET. rewrite !read_ok by lia. cbn [bind].
  unfold DDPF_ALPHAPIXELS. change 0x1 with (2 ^ 0) at 1. rewrite land_bit by lia. f_equal. unfold pixel_format.
  change 0x50 with 80. change 0x58 with 88. change 0x5C with 92. change 0x60 with 96. change 0x64 with 100. change 0x68 with 104.
  destruct (word data 88 =? 24) eqn:A; cbn [andb].
  - replace (word data 88 =? 32) with false by lia. cbn [andb]. reflexivity.
  - destruct (word data 88 =? 32); cbn [andb]; [|reflexivity]. destruct (Z.testbit (word data 80) 0); reflexivity.
Qed.

Lemma parse_ignore_eq : forall debug data,
  parse_dds_ignore_magic debug data =
  if complete_headers data then (do n <- run_length debug data ;; Ok (Some (DdsInfo (stated_format data) (header_bytes data) n))) else Ok None.
Proof.
  intros debug data. unfold parse_dds_ignore_magic, complete_headers, DDS_HEADER_SIZE. change 0x80 with 128.
  destruct (zlen data <? 128) eqn:L; [replace (128 <=? zlen data) with false by lia; reflexivity|].
  replace (128 <=? zlen data) with true by lia. cbn [andb].
  unfold FOURCC_OFFSET, DDS_PIXELFORMAT_FLAGS_OFFSET, DX10_FORMAT_OFFSET, DX10_HEADER_SIZE.
  rewrite !read_ok with (o := 0x54) by lia. cbn [bind]. change 0x54 with 84. change FOURCC_DX10 with (four "DX10").
  fold (has_dx10 data). destruct (has_dx10 data) eqn:D; cbn [negb orb].
  - change (128 + 20) with 148. destruct (zlen data <? 148) eqn:L2; [replace (148 <=? zlen data) with false by lia; reflexivity|].
    replace (148 <=? zlen data) with true by lia. cbn [negb]. rewrite read_ok by lia. cbn [bind]. rewrite dxgi_eq. change 0x80 with 128.
    assert (S : dxgi_format (word data 128) = stated_format data) by (unfold stated_format; rewrite D; reflexivity). rewrite S.
    rewrite <- calc_length by lia. change (148 mod 256) with 148. replace 148 with (header_bytes data) by (unfold header_bytes; rewrite D; reflexivity).
    destruct (calculate_data_length debug (stated_format data) data) as [[n|]| |]; reflexivity.
  - rewrite read_ok by lia. cbn [bind]. unfold DDPF_FOURCC, DDPF_RGB. change 0x4 with (2 ^ 2). change 0x40 with (2 ^ 6). rewrite !land_bit by lia.
    rewrite pixel_eq by lia. rewrite code_eq. change 0x50 with 80.
    assert (S : (if Z.testbit (word data 80) 2 then Ok (code_format (word data 84)) else if Z.testbit (word data 80) 6 then Ok (pixel_format data) else Ok Unknown)
      = Ok (stated_format data)).
    { unfold stated_format. rewrite D. destruct (Z.testbit (word data 80) 2); [reflexivity|]. destruct (Z.testbit (word data 80) 6); reflexivity. }
    rewrite S. cbn [bind]. rewrite <- calc_length by lia. change (128 mod 256) with 128.
    replace (Some (DdsInfo (stated_format data) (header_bytes data))) with (Some (DdsInfo (stated_format data) 128)) by (unfold header_bytes; rewrite D; reflexivity).
    unfold header_bytes. rewrite D. destruct (calculate_data_length debug (stated_format data) data) as [[n|]| |]; reflexivity.
Qed.

Lemma likely_eq : forall data, likely_dds data = (128 <=? zlen data) && has_magic data.
Proof. reflexivity. Qed.

Lemma parse_eq : forall debug data,
  parse_dds debug data =
  if has_magic data && complete_headers data then (do n <- run_length debug data ;; Ok (Some (DdsInfo (stated_format data) (header_bytes data) n))) else Ok None.
Proof.
  intros debug data. unfold parse_dds. rewrite likely_eq, parse_ignore_eq. unfold complete_headers.
  destruct (128 <=? zlen data); cbn [andb negb]; [|rewrite Bool.andb_false_r; reflexivity].
  destruct (has_magic data); reflexivity.
Qed.

Lemma level_pos : forall data, match level_of data with NoLevels => True | Blocks k | Pixels k => 0 < k end.
Proof.
  intros data. unfold level_of. destruct (stated_format data); try exact I; try lia.
  cbn zeta. destruct (word data 88 mod 8 =? 0); rewrite ?Bool.andb_false_r; [|exact I]. rewrite Bool.andb_true_r.
  pose proof (word_bound data 88). destruct (word data 88 / 8 =? 0) eqn:E; cbn [negb]; rewrite ?Bool.andb_false_r; [exact I|].
  rewrite Bool.andb_true_r. destruct (_ || _ || _ || _); [lia|exact I].
Qed.

Lemma level_bytes_eq : forall data w h, level_bytes data w h =
  match level_of data with
  | NoLevels => None
  | Blocks k => Some (k * (((w + 3) / 4) * ((h + 3) / 4)))
  | Pixels k => Some (k * (w * h))
  end.
Proof.
  intros data w h. unfold level_bytes, level_of. destruct (stated_format data); try reflexivity.
  cbn zeta. destruct (_ && _ && _); reflexivity.
Qed.

Lemma run_length_release : forall data, exists n, run_length false data = Ok n /\ 0 <= n < 2 ^ 32.
Proof.
  intros data. unfold run_length. pose proof (level_pos data) as P. pose proof (word_bound data 16) as W. pose proof (word_bound data 12) as H.
  destruct (level_of data) as [|k|k]; [exists 0; split; [reflexivity|lia]|..].
  - apply mip_release; [intros w h Hw Hh; apply blvl_release; lia|lia|lia|lia].
  - apply mip_release; [intros w h Hw Hh; apply lvl_release; lia|lia|lia|lia].
Qed.
Lemma run_length_mono : forall data n, run_length true data = Ok n -> run_length false data = Ok n.
Proof.
  intros data n. unfold run_length. destruct (level_of data) as [|k|k]; [auto|..].
  - apply mip_mono. intros w h s. apply (lvl_mono k (div_ceil w 4) (div_ceil h 4)).
  - apply mip_mono. intros w h s. apply lvl_mono.
Qed.
Lemma run_length_no_ub : forall d data why, run_length d data <> Ub why.
Proof.
  intros d data why. unfold run_length. destruct (level_of data) as [|k|k]; [discriminate|..].
  - apply mip_no_ub. intros w h y. apply (lvl_no_ub d k (div_ceil w 4) (div_ceil h 4)).
  - apply mip_no_ub. intros w h y. apply lvl_no_ub.
Qed.
Lemma run_length_bound : forall d data n, run_length d data = Ok n -> 0 <= n < 2 ^ 32.
Proof.
  intros [] data n H; [apply run_length_mono in H|]; destruct (run_length_release data) as (m & E & B); rewrite E in H; injection H as <-; exact B.
Qed.

Lemma run_length_chain : forall d data, levels_fit data -> run_length d data = Ok (Z.min (chain_bytes data) (2 ^ 32 - 1)).
Proof.
  intros d data F. unfold run_length, chain_bytes. unfold levels_fit, level in F.
  pose proof (level_pos data) as P. pose proof (word_bound data 16) as W. pose proof (word_bound data 12) as H.
  assert (M : 0 < mip_count data) by (unfold mip_count; destruct (Z.testbit (word data 8) 17); lia).
  destruct (level_of data) as [|k|k] eqn:LF.
  - f_equal. assert (Z0 : forall n i, fold_right Z.add 0 (map (fun i => match level data i with Some n => n | None => 0 end) (zseq i n)) = 0).
    { induction n as [|n IH]; intros i; [reflexivity|]. cbn [zseq map fold_right]. rewrite IH. unfold level. rewrite level_bytes_eq, LF. reflexivity. }
    rewrite Z0. reflexivity.
  - change (word data 16) with (dim (word data 16) 0) at 1. change (word data 12) with (dim (word data 12) 0) at 1.
    rewrite mip_sum with (L := fun i => match level data i with Some n => n | None => 0 end); [f_equal; f_equal; lia|lia|lia|lia|lia|].
    intros j Hj. unfold level. rewrite level_bytes_eq, LF. specialize (F j (k * (((dim (word data 16) j + 3) / 4) * ((dim (word data 12) j + 3) / 4))) ltac:(lia)).
    rewrite level_bytes_eq, LF in F. specialize (F eq_refl).
    pose proof (dim_nonneg (word data 16) j ltac:(lia)). pose proof (dim_nonneg (word data 12) j ltac:(lia)).
    split; [apply blvl_ok; lia|]. apply Z.mul_nonneg_nonneg; [lia|]. apply Z.mul_nonneg_nonneg; lia.
  - change (word data 16) with (dim (word data 16) 0) at 1. change (word data 12) with (dim (word data 12) 0) at 1.
    rewrite mip_sum with (L := fun i => match level data i with Some n => n | None => 0 end); [f_equal; f_equal; lia|lia|lia|lia|lia|].
    intros j Hj. unfold level. rewrite level_bytes_eq, LF. specialize (F j (k * (dim (word data 16) j * dim (word data 12) j)) ltac:(lia)).
    rewrite level_bytes_eq, LF in F. specialize (F eq_refl).
    pose proof (dim_nonneg (word data 16) j ltac:(lia)). pose proof (dim_nonneg (word data 12) j ltac:(lia)).
    split; [apply lvl_ok; lia|]. apply Z.mul_nonneg_nonneg; [lia|]. apply Z.mul_nonneg_nonneg; lia.
Qed.
