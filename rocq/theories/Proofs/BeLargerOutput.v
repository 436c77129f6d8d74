(** DDS files and output buffers longer than the file, on big-endian machines
    (Proofs/LargerOutput.v with the big-endian functions). *)
From Verif Require Import Base.Bytes Base.Res Model.Color565 Model.Ycc Model.Kernel Model.Transform Model.Auto Model.Builders Model.Embed Model.Bundle Model.Dds
  Model.BigEndian Model.BeTransform Model.BeFiles
  Spec.Layout Spec.BigEndian Spec.BeFiles Spec.Estimator Spec.Header Spec.Files Spec.Dds Spec.Release Proofs.LayoutFacts Proofs.Families Proofs.BeFamilies Proofs.BeSliceFacts Proofs.BeTransformFacts
  Proofs.SliceFacts Proofs.AutoTheorems Proofs.EmbedFacts Proofs.BundleFacts Proofs.BeBundleFacts
  Proofs.DdsFacts Proofs.DdsHandler Proofs.BeDdsHandler Proofs.ReleaseFacts Proofs.BeReleaseFacts Proofs.LargerOutput.
From Coq Require Import ZifyBool ZifyNat.

Section Autos.
Context {St Er : Type}.
Variables (c : cfg) (v : Auto.env) (e : estimator St Er) (all : bool) (x out : list byte) (st st' : St) (r : result settings (auto_error Er)) (y : list byte).
Hypothesis (K : cpu_ok c).
Let c' := release_build c.
Lemma be_keep1 : be_transform_bc1_auto c' v e all x out st = Ok (r, y, st') -> zlen y = zlen out.
Proof.
  apply auto_checked_keeps; [lia|]. intros N m' r' st1 HN E LE Q. unfold be_transform_bc1_auto_ptr in Q.
  apply (search_keeps _ (room (8 * N) (zlen out))) in Q; [apply Q| |unfold room; cbn [m_in m_out]; lia].
  intros s m m1 (A & B & C) Q1. unfold c' in Q1. rewrite (be_release1 c m N K HN s A B) in Q1. apply ok_inj in Q1. subst m1. apply room_kept; [repeat split; assumption|].
  destruct (be_bc1_fam (decorrelation_mode s) (split_colour_endpoints s)) as (sht & shu & FM).
  unfold be_bc1_layout, zlen. rewrite (fam_len _ _ _ _ _ _ FM ltac:(lia)) by (apply (whole_blocks 8); [lia|reflexivity|lia..]).
  pose proof (zlen_slice _ (m_in m) 0 (8 * N)) as Z. unfold zlen in Z at 2. lia.
Qed.
Lemma be_keep2 : be_transform_bc2_auto c' v e all x out st = Ok (r, y, st') -> zlen y = zlen out.
Proof.
  apply auto_checked_keeps; [lia|]. intros N m' r' st1 HN E LE Q. unfold be_transform_bc2_auto_ptr in Q.
  apply (search_keeps _ (room (16 * N) (zlen out))) in Q; [apply Q| |unfold room; cbn [m_in m_out]; lia].
  intros s m m1 (A & B & C) Q1. unfold c' in Q1. rewrite (be_release2 c m N K HN s A B) in Q1. apply ok_inj in Q1. subst m1. apply room_kept; [repeat split; assumption|].
  destruct (be_bc2_fam (decorrelation_mode s) (split_colour_endpoints s)) as (sht & shu & FM).
  unfold be_bc2_layout, zlen. rewrite (fam_len _ _ _ _ _ _ FM ltac:(lia)) by (apply (whole_blocks 16); [lia|reflexivity|lia..]).
  pose proof (zlen_slice _ (m_in m) 0 (16 * N)) as Z. unfold zlen in Z at 2. lia.
Qed.
End Autos.

Lemma be_core_keeps : forall k c s x out r y, cpu_ok c -> be_core_transform k (release_build c) s x out = Ok (r, y) -> zlen y = zlen out.
Proof.
  intros k c s x out r y K. destruct (zlen x mod codec_block k =? 0) eqn:Z.
  - destruct (zlen out <? zlen x) eqn:L.
    + destruct k; cbn [be_core_transform codec_block] in *; unfold be_transform_bc1, be_transform_bc2, checked; rewrite Z, L; cbn [negb]; intros Q; congruence.
    + rewrite be_core_transform_ok; [|exact (release_ok c K)|lia|lia]. intros Q. apply ok_inj in Q.
      assert (Y : y = be_texture_layout k s x ++ skipn (List.length x) out) by congruence. subst y. rewrite zlen_app. unfold zlen in *. rewrite skipn_length, be_layout_len by (unfold zlen; lia). lia.
  - destruct k; cbn [be_core_transform codec_block] in *; unfold be_transform_bc1, be_transform_bc2, checked; rewrite Z; cbn [negb]; intros Q; congruence.
Qed.
Lemma be_dispatch_keeps : forall St Er (show : Er -> string) c v (t : bundle St Er) f x out st r y st', cpu_ok c ->
  be_dispatch_transform show (release_build c) v t f x out st = Ok (r, y, st') -> zlen y = zlen out.
Proof.
  intros St Er show c v t f x out st r y st' K. unfold be_dispatch_transform. destruct (zlen out <? zlen x); [intros Q; congruence|]. cbv zeta.
  assert (D : forall k b r y st', be_transform_slice_with_details show k (release_build c) v b x out st = Ok (r, y, st') -> zlen y = zlen out).
  { intros k [b|b] r1 y1 st1; unfold be_transform_slice_with_details; cbv zeta.
    - unfold be_manual_transform. destruct (be_core_transform k (release_build c) (mb_settings b) x out) as [[r2 y2]|w|w] eqn:E; cbn [bind fst snd]; try (intros Q; congruence).
      apply be_core_keeps in E; [|exact K]. destruct (map_err from_validation_error r2); intros Q; congruence.
    - unfold be_auto_transform. destruct (be_core_auto k (release_build c) v (ab_estimator b) (ab_use_all b) x out st) as [[[r2 y2] st2]|w|w] eqn:E; cbn [bind]; try (intros Q; congruence).
      assert (Z : zlen y2 = zlen out) by (destruct k; cbn [be_core_auto] in E; [exact (be_keep1 _ _ _ _ _ _ _ _ _ _ K E)|exact (be_keep2 _ _ _ _ _ _ _ _ _ _ K E)]).
      destruct r2; cbn [bind]; intros Q; congruence. }
  destruct f; try (intros Q; congruence); [destruct (b_bc1 t) as [b|]|destruct (b_bc2 t) as [b|]]; try (intros Q; congruence);
  [destruct (be_transform_slice_with_details show CBc1 (release_build c) v b x out st) as [[[r2 y2] st2]|w|w] eqn:E
  |destruct (be_transform_slice_with_details show CBc2 (release_build c) v b x out st) as [[[r2 y2] st2]|w|w] eqn:E]; cbn [bind]; try (intros Q; congruence);
  apply D in E; destruct r2; intros Q; congruence.
Qed.
Lemma be_dispatch_keeps_any : forall St Er (show : Er -> string) c v (t : bundle St Er) f x out st r y st', cpu_ok c ->
  be_dispatch_transform show c v t f x out st = Ok (r, y, st') -> zlen y = zlen out.
Proof.
  intros St Er show c v t f x out st r y st' K E. destruct (be_dispatch_agree St Er show c v t f x out st K) as [A|(w & A)]; [|congruence].
  rewrite A in E. exact (be_dispatch_keeps _ _ _ _ _ _ _ _ _ _ _ _ _ K E).
Qed.
Lemma be_undispatch_keeps : forall c h x out r y, cpu_ok c -> be_dispatch_untransform c h x out = Ok (r, y) -> zlen y = zlen out.
Proof.
  intros c h x out r y K E. destruct (be_undispatch_agree c h x out K) as [A|(w & A)]; [|congruence]. rewrite A in E.
  destruct (Z_lt_le_dec (zlen out) (zlen x)) as [L|L].
  - unfold be_dispatch_untransform in E. replace (zlen out <? zlen x) with true in E by lia. congruence.
  - destruct (be_undispatch_total (release_build c) h x out (release_ok c K) L) as (r1 & o1 & E1 & Z). congruence.
Qed.

Lemma be_transform_longer : forall St Er (show : Er -> string) c v (t : bundle St Er) x out extra st, cpu_ok c -> 2 ^ 32 + 147 <= usize_max v -> zlen out = zlen x ->
  be_dds_transform_bundle show c v t x (out ++ extra) st =
  match be_dds_transform_bundle show c v t x out st with
  | Ok (ROk u, y, st1) => if trailing (parse_dds (c_debug c) x) x && (0 <? zlen extra) then Panic mismatch else Ok (ROk u, y ++ extra, st1)
  | Ok (RErr e, y, st1) => Ok (RErr e, y ++ extra, st1)
  | r => r
  end.
Proof.
  intros St Er show c v t x out extra st K U L. pose proof (zlen_nonneg _ extra) as LX.
  destruct (parse_dds (c_debug c) x) as [[i|]|w|w] eqn:P.
  2,3,4: unfold be_dds_transform_bundle; rewrite zlen_app; replace (zlen out + zlen extra <? zlen x) with false by lia;
    replace (zlen out <? zlen x) with false by lia; rewrite P; reflexivity.
  cbn [trailing].
  destruct (parse_facts _ _ _ (proj2 (parse_dds_facts _ _ _ P))) as (_ & _ & _ & _ & Hn & Ho & Hx).
  destruct (Z_lt_le_dec (zlen x) (i_data_offset i + i_data_length i)) as [Lt|Le].
  - unfold be_dds_transform_bundle; rewrite zlen_app; replace (zlen out + zlen extra <? zlen x) with false by lia;
    replace (zlen out <? zlen x) with false by lia; rewrite P; cbn [bind]. unfold usize_add. replace (_ <=? usize_max v) with true by lia. cbn [bind].
    replace (zlen x <? _) with true by lia. reflexivity.
  - destruct (pieces3 x (i_data_offset i) (i_data_length i) ltac:(lia) ltac:(lia) Le) as (H & T & R & X & LH & LT & LR & _).
    destruct (pieces3 out (i_data_offset i) (i_data_length i) ltac:(lia) ltac:(lia) ltac:(lia)) as (oH & oT & oR & O & LoH & LoT & LoR & _).
    replace (i_data_offset i + i_data_length i <? zlen x) with (0 <? zlen R) by lia.
    rewrite X in P. rewrite X, O, <- !app_assoc.
    rewrite (be_transform_pieces show c v t H T R oH oT (oR ++ extra) st i P) by (rewrite ?zlen_app; lia).
    rewrite (be_transform_pieces show c v t H T R oH oT oR st i P) by lia.
    destruct (dds_format_to_transform_format (i_format i) false) as [f|e]; [|rewrite !app_assoc; reflexivity].
    refine (rest_longer (fun T oT st => be_dispatch_transform show c v t f T oT st) _ H T R oT oR extra st ltac:(lia) ltac:(lia) ltac:(lia)).
    intros T0 oT0 st0 r y st1 E. exact (be_dispatch_keeps_any _ _ _ _ _ _ _ _ _ _ _ _ _ K E).
Qed.

Lemma be_untransform_longer : forall c v x out extra, cpu_ok c -> 2 ^ 32 + 147 <= usize_max v -> zlen out = zlen x ->
  be_dds_untransform c v x (out ++ extra) =
  match be_dds_untransform c v x out with
  | Ok (ROk u, y) => if trailing (parse_dds_ignore_magic (c_debug c) x) x && (0 <? zlen extra) then Panic mismatch else Ok (ROk u, y ++ extra)
  | Ok (RErr e, y) => Ok (RErr e, y ++ extra)
  | r => r
  end.
Proof.
  intros c v x out extra K U L. pose proof (zlen_nonneg _ extra) as LX.
  destruct (Z_lt_le_dec (zlen x) 4) as [S|S]; [unfold be_dds_untransform; replace (zlen x <? 4) with true by lia; reflexivity|].
  destruct (parse_dds_ignore_magic (c_debug c) x) as [[i|]|w|w] eqn:P.
  2,3,4: unfold be_dds_untransform; rewrite zlen_app; replace (zlen x <? 4) with false by lia; replace (zlen out + zlen extra <? zlen x) with false by lia;
    replace (zlen out <? zlen x) with false by lia; rewrite P; reflexivity.
  cbn [trailing].
  destruct (parse_facts _ _ _ P) as (_ & _ & _ & _ & Hn & Ho & Hx).
  destruct (Z_lt_le_dec (zlen x) (i_data_offset i + i_data_length i)) as [Lt|Le].
  - unfold be_dds_untransform; rewrite zlen_app; replace (zlen x <? 4) with false by lia; replace (zlen out + zlen extra <? zlen x) with false by lia;
    replace (zlen out <? zlen x) with false by lia; rewrite P; cbn [bind]. cbv zeta. unfold usize_add. replace (_ <=? usize_max v) with true by lia. cbn [bind].
    replace (zlen x <? _) with true by lia. reflexivity.
  - destruct (pieces4 x (i_data_offset i) (i_data_length i) ltac:(lia) ltac:(lia) Le) as (M & H & T & R & X & LM & LH & LT & LR & _).
    destruct (pieces4 out (i_data_offset i) (i_data_length i) ltac:(lia) ltac:(lia) ltac:(lia)) as (oM & oH & oT & oR & O & LoM & LoH & LoT & LoR & _).
    replace (i_data_offset i + i_data_length i <? zlen x) with (0 <? zlen R) by lia.
    rewrite X in P. rewrite X, O, <- !app_assoc.
    rewrite (be_untransform_pieces c v M H T R oM oH oT (oR ++ extra) i P) by (rewrite ?zlen_app; lia).
    rewrite (be_untransform_pieces c v M H T R oM oH oT oR i P) by lia.
    destruct (be_dispatch_untransform c (word (M ++ H ++ T ++ R) 0) T oT) as [[[u|e] target]|w|w] eqn:E; cbn [bind]; try reflexivity; cbv zeta;
      apply be_undispatch_keeps in E; try exact K; assert (E' : List.length oT = List.length target) by (apply zlen_eq; lia);
      pose proof (zlen_nonneg _ R); pose proof (zlen_nonneg _ target); set (m4 := u32_bytes DDS_MAGIC); assert (L4 : zlen m4 = 4) by reflexivity;
      rewrite !(app_assoc m4 H), !splice_mid by (rewrite ?zlen_app; first [lia | exact E']).
    + destruct (0 <? zlen R) eqn:ZR; cbn [bind andb]; [|rewrite !app_assoc; reflexivity].
      assert (C : copy_range ((m4 ++ H) ++ target ++ oR) (4 + zlen H + zlen T) (zlen ((m4 ++ H) ++ target ++ oR)) R = Ok ((m4 ++ H) ++ target ++ R)).
      { rewrite app_assoc, copy_tail by (rewrite ?zlen_app; lia). rewrite <- app_assoc. reflexivity. }
      rewrite C. cbn [bind]. destruct (0 <? zlen extra) eqn:ZE.
      * rewrite (app_assoc (m4 ++ H) target). rewrite (copy_longer ((m4 ++ H) ++ target) oR R extra) by (rewrite ?zlen_app; lia). reflexivity.
      * destruct extra as [|b q]; [|unfold zlen in ZE; cbn [List.length] in ZE; lia]. rewrite !app_nil_r, C. reflexivity.
    + rewrite !app_assoc. reflexivity.
Qed.

(** ** Machines whose addresses are short *)
Lemma be_untransform_wide : forall c v1 v2 x out, (forall i, parse_dds_ignore_magic (c_debug c) x = Ok (Some i) -> i_data_offset i + i_data_length i <= usize_max v1 /\ i_data_offset i + i_data_length i <= usize_max v2) ->
  be_dds_untransform c v1 x out = be_dds_untransform c v2 x out.
Proof.
  intros c v1 v2 x out H. unfold be_dds_untransform. destruct (zlen x <? 4); [reflexivity|]. destruct (zlen out <? zlen x); [reflexivity|]. cbv zeta.
  destruct (parse_dds_ignore_magic (c_debug c) x) as [[i|]|w|w] eqn:P; cbn [bind]; try reflexivity.
  destruct (H i eq_refl) as (A & B). unfold usize_add. replace (_ <=? usize_max v1) with true by lia. replace (_ <=? usize_max v2) with true by lia. reflexivity.
Qed.
Lemma be_untransform_narrow : forall c v x out i, 2 ^ 32 - 1 <= usize_max v -> zlen x <= zlen out ->
  parse_dds_ignore_magic (c_debug c) x = Ok (Some i) -> usize_max v < i_data_offset i + i_data_length i -> exists why, be_dds_untransform c v x out = Panic why.
Proof.
  intros c v x out i U L P N. destruct (parse_facts _ _ _ P) as (_ & _ & _ & _ & Hn & Ho & Hx).
  unfold be_dds_untransform. replace (zlen x <? 4) with false by lia. replace (zlen out <? zlen x) with false by lia. cbv zeta. rewrite P. cbn [bind].
  unfold usize_add. replace (_ <=? usize_max v) with false by lia. destruct (c_debug c); [eexists; reflexivity|]. cbn [bind].
  set (e := (i_data_offset i + i_data_length i) mod (usize_max v + 1)).
  assert (E : e = i_data_offset i + i_data_length i - (usize_max v + 1)).
  { unfold e. symmetry. apply (Z.mod_unique _ _ 1); lia. }
  replace (zlen x <? e) with false by lia.
  destruct (copy_range out 0 4 (u32_bytes DDS_MAGIC)) as [o|w|w] eqn:C; cbn [bind]; [|eexists; reflexivity|exfalso; exact (copy_no_ub _ _ _ _ _ C)].
  destruct (range x 4 (i_data_offset i)) as [hd|w|w] eqn:R; cbn [bind]; [|eexists; reflexivity|exfalso; exact (range_no_ub _ _ _ _ R)].
  destruct (copy_range o 4 (i_data_offset i) hd) as [o1|w|w] eqn:C1; cbn [bind]; [|eexists; reflexivity|exfalso; exact (copy_no_ub _ _ _ _ _ C1)].
  unfold range at 1. replace ((0 <=? i_data_offset i) && (i_data_offset i <=? e) && (e <=? zlen x)) with false by lia. eexists; reflexivity.
Qed.
Lemma be_transform_narrow : forall St Er (show : Er -> string) c v (t : bundle St Er) x out st i, 2 ^ 32 - 1 <= usize_max v -> zlen x <= zlen out ->
  parse_dds (c_debug c) x = Ok (Some i) -> usize_max v < i_data_offset i + i_data_length i ->
  match dds_format_to_transform_format (i_format i) false with
  | ROk _ => exists why, be_dds_transform_bundle show c v t x out st = Panic why
  | RErr e => if c_debug c then exists why, be_dds_transform_bundle show c v t x out st = Panic why
    else be_dds_transform_bundle show c v t x out st = Ok (RErr e, firstn (Z.to_nat (i_data_offset i)) x ++ skipn (Z.to_nat (i_data_offset i)) out, st)
  end.
Proof.
  intros St Er show c v t x out st i U L P N. destruct (parse_facts _ _ _ (proj2 (parse_dds_facts _ _ _ P))) as (_ & _ & _ & _ & Hn & Ho & Hx).
  unfold be_dds_transform_bundle. replace (zlen out <? zlen x) with false by lia. rewrite P. cbn [bind].
  unfold usize_add. replace (_ <=? usize_max v) with false by lia. destruct (c_debug c); [destruct (dds_format_to_transform_format _ _); eexists; reflexivity|]. cbn [bind].
  set (e := (i_data_offset i + i_data_length i) mod (usize_max v + 1)).
  assert (E : e = i_data_offset i + i_data_length i - (usize_max v + 1)).
  { unfold e. symmetry. apply (Z.mod_unique _ _ 1); lia. }
  replace (zlen x <? e) with false by lia.
  assert (RG : range x 0 (i_data_offset i) = Ok (slice x 0 (i_data_offset i))).
  { unfold range. replace ((0 <=? 0) && (0 <=? i_data_offset i) && (i_data_offset i <=? zlen x)) with true by lia. rewrite Z.sub_0_r. reflexivity. }
  rewrite RG. cbn [bind]. assert (LS : zlen (slice x 0 (i_data_offset i)) = i_data_offset i) by (apply zlen_slice; lia).
  destruct (pieces3 out 0 (i_data_offset i) ltac:(lia) ltac:(lia) ltac:(lia)) as (oH & oT & oR & O & LoH & LoT & LoR & _).
  assert (oH = []) by (destruct oH; [reflexivity|unfold zlen in LoH; cbn [List.length] in LoH; lia]). subst oH. cbn [app] in O.
  rewrite O, copy_head by lia. cbn [bind].
  destruct (dds_format_to_transform_format (i_format i) false) as [f|er].
  - assert (RE : range x (i_data_offset i) e = Panic "slice index out of range").
    { unfold range. replace ((0 <=? i_data_offset i) && (i_data_offset i <=? e) && (e <=? zlen x)) with false by lia. reflexivity. }
    rewrite RE. eexists; reflexivity.
  - repeat f_equal. unfold zlen in LoT. replace (Z.to_nat (i_data_offset i)) with (List.length oT) by lia.
    rewrite skipn_app, skipn_all, Nat.sub_diag. reflexivity.
Qed.
