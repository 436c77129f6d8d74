(** Proofs/SliceFacts.v for a big-endian machine (generated by tools/gen_be.py). *)
From Verif Require Import Base.Bytes Base.Res Model.Color565 Model.Ycc Model.Kernel Model.Transform Model.BeTransform
  Proofs.KernelCheck Proofs.KernelLoop Proofs.KernelFun Proofs.Shapes Proofs.BeShapes Spec.YCoCg Spec.Layout Spec.BigEndian
  Proofs.LayoutFacts Proofs.ShapeLayout Proofs.Families Proofs.BeFamilies Proofs.TransformFacts Proofs.SliceFacts Proofs.BeTransformFacts.
From Coq Require Import ZifyBool ZifyNat Permutation.

Lemma be_bc1_fam : forall v sp, exists sht shu, FAM v sht shu 8 (be_bc1_fields v sp) (bc1_widths sp).
Proof. intros v []; do 2 eexists; [apply be_fam_bc1_scr|apply be_fam_bc1_rec]. Qed.
Lemma be_bc2_fam : forall v sp, exists sht shu, FAM v sht shu 16 (be_bc2_fields v sp) (bc2_widths sp).
Proof. intros v []; do 2 eexists; [apply be_fam_bc2_scr|apply be_fam_bc2_rec]. Qed.
Lemma be_bc3_fam : forall v sa sp, exists sht shu, FAM v sht shu 16 (be_bc3_fields v sa sp) (bc3_widths sa sp).
Proof. intros v [] []; do 2 eexists; [apply be_fam_bc3_sacr|apply be_fam_bc3_sar|apply be_fam_bc3_scr|apply be_fam_bc3_rec]. Qed.
Lemma be_bc1_none : forall sp b, List.length b = 8%nat -> List.concat (map (fun f : field => f b) (be_bc1_fields VNone sp)) = b.
Proof. intros sp b H. do 8 (destruct b as [|? b]; [discriminate H|]). destruct b; [|discriminate H]. destruct sp; cbn; rewrite ?u16be_le, ?lo8_u16le, ?hi8_u16le; reflexivity. Qed.
Lemma be_bc2_none : forall sp b, List.length b = 16%nat -> List.concat (map (fun f : field => f b) (be_bc2_fields VNone sp)) = b.
Proof. intros sp b H. do 16 (destruct b as [|? b]; [discriminate H|]). destruct b; [|discriminate H]. destruct sp; cbn; rewrite ?u16be_le, ?lo8_u16le, ?hi8_u16le; reflexivity. Qed.
Lemma be_bc3_none : forall sa sp b, List.length b = 16%nat -> List.concat (map (fun f : field => f b) (be_bc3_fields VNone sa sp)) = b.
Proof. intros sa sp b H. do 16 (destruct b as [|? b]; [discriminate H|]). destruct b; [|discriminate H]. destruct sa, sp; cbn; rewrite ?u16be_le, ?lo8_u16le, ?hi8_u16le; reflexivity. Qed.

Lemma be_bc1_call : forall c s inp aux out a b len, cpu_ok c -> 
  len mod 8 = 0 -> 0 <= len -> 0 <= a -> 0 <= b -> a + len <= zlen inp -> b + len <= zlen out ->
  be_transform_bc1_with_settings c (Ptr BIn a) (Ptr BOut b) len s (Mem inp aux out) =
  Ok (Mem inp aux (splice out b (be_bc1_layout (decorrelation_mode s) (split_colour_endpoints s) (slice inp a len)))).
Proof.
  intros c s inp aux out a b len K Hm Hl Ha Hb Hi Ho.
  replace len with (8 * (len / 8)) by lia.
  exact (be_transform_bc1_ptr c s a b (len / 8) (Mem inp aux out) K Ha Hb ltac:(lia) ltac:(cbn [m_in]; lia) ltac:(cbn [m_out]; lia)).
Qed.
Lemma be_bc1_slice : forall c s x out, cpu_ok c -> 
  zlen x mod 8 = 0 -> zlen x <= zlen out ->
  be_transform_bc1 c s x out = Ok (ROk tt, be_bc1_layout (decorrelation_mode s) (split_colour_endpoints s) x ++ skipn (List.length x) out).
Proof.
  intros c s x out K Hm Ho. unfold be_transform_bc1, checked.
  replace (zlen x mod 8 =? 0) with true by lia. cbn [negb]. replace (zlen out <? zlen x) with false by lia.
  pose proof (be_bc1_call c s x [] out 0 0 (zlen x) K Hm (zlen_nonneg _ x) ltac:(lia) ltac:(lia) ltac:(lia) ltac:(lia)) as E.
  rewrite E. cbn [bind m_out]. rewrite slice_all, splice_at_0.
  destruct (be_bc1_fam (decorrelation_mode s) (split_colour_endpoints s)) as (sht & shu & FM).
  unfold be_bc1_layout at 2. rewrite (fam_len _ _ _ _ _ _ FM) by (unfold zlen in Hm; lia). reflexivity.
Qed.

Lemma be_unbc1_call : forall c s inp aux out a b len, cpu_ok c -> 
  len mod 8 = 0 -> 0 <= len -> 0 <= a -> 0 <= b -> a + len <= zlen inp -> b + len <= zlen out ->
  exists y, be_untransform_bc1_with_settings c (Ptr BIn a) (Ptr BOut b) len s (Mem inp aux out) =
  Ok (Mem inp aux (splice out b y)) /\ zlen y = len /\ be_bc1_layout (decorrelation_mode s) (split_colour_endpoints s) y = slice inp a len.
Proof.
  intros c s inp aux out a b len K Hm Hl Ha Hb Hi Ho.
  replace len with (8 * (len / 8)) by lia.
  destruct (be_untransform_bc1_ptr c s a b (len / 8) (Mem inp aux out) K Ha Hb ltac:(lia) ltac:(cbn [m_in]; lia) ltac:(cbn [m_out]; lia)) as (y & E & L & Y).
  cbn [m_in m_aux m_out] in *. exists y. repeat apply conj; [exact E| |exact Y].
  pose proof (zlen_slice _ inp a (8 * (len / 8)) ltac:(lia) ltac:(lia) ltac:(lia)) as S. unfold zlen in *. lia.
Qed.
Lemma be_unbc1_slice : forall c s x out, cpu_ok c -> 
  zlen x mod 8 = 0 -> zlen x <= zlen out ->
  exists y, be_untransform_bc1 c s x out = Ok (ROk tt, y ++ skipn (List.length x) out) /\ List.length y = List.length x /\ be_bc1_layout (decorrelation_mode s) (split_colour_endpoints s) y = x.
Proof.
  intros c s x out K Hm Ho. unfold be_untransform_bc1, checked.
  replace (zlen x mod 8 =? 0) with true by lia. cbn [negb]. replace (zlen out <? zlen x) with false by lia.
  destruct (be_unbc1_call c s x [] out 0 0 (zlen x) K Hm (zlen_nonneg _ x) ltac:(lia) ltac:(lia) ltac:(lia) ltac:(lia)) as (y & E & L & Y).
  exists y. rewrite slice_all in Y. rewrite E. cbn [bind m_out]. rewrite splice_at_0.
  assert (LL : List.length y = List.length x) by (unfold zlen in L; lia). rewrite LL. auto.
Qed.

Lemma be_bc2_call : forall c s inp aux out a b len, cpu_ok c -> 
  len mod 16 = 0 -> 0 <= len -> 0 <= a -> 0 <= b -> a + len <= zlen inp -> b + len <= zlen out ->
  be_transform_bc2_with_settings c (Ptr BIn a) (Ptr BOut b) len s (Mem inp aux out) =
  Ok (Mem inp aux (splice out b (be_bc2_layout (decorrelation_mode s) (split_colour_endpoints s) (slice inp a len)))).
Proof.
  intros c s inp aux out a b len K Hm Hl Ha Hb Hi Ho.
  replace len with (16 * (len / 16)) by lia.
  exact (be_transform_bc2_ptr c s a b (len / 16) (Mem inp aux out) K Ha Hb ltac:(lia) ltac:(cbn [m_in]; lia) ltac:(cbn [m_out]; lia)).
Qed.
Lemma be_bc2_slice : forall c s x out, cpu_ok c -> 
  zlen x mod 16 = 0 -> zlen x <= zlen out ->
  be_transform_bc2 c s x out = Ok (ROk tt, be_bc2_layout (decorrelation_mode s) (split_colour_endpoints s) x ++ skipn (List.length x) out).
Proof.
  intros c s x out K Hm Ho. unfold be_transform_bc2, checked.
  replace (zlen x mod 16 =? 0) with true by lia. cbn [negb]. replace (zlen out <? zlen x) with false by lia.
  pose proof (be_bc2_call c s x [] out 0 0 (zlen x) K Hm (zlen_nonneg _ x) ltac:(lia) ltac:(lia) ltac:(lia) ltac:(lia)) as E.
  rewrite E. cbn [bind m_out]. rewrite slice_all, splice_at_0.
  destruct (be_bc2_fam (decorrelation_mode s) (split_colour_endpoints s)) as (sht & shu & FM).
  unfold be_bc2_layout at 2. rewrite (fam_len _ _ _ _ _ _ FM) by (unfold zlen in Hm; lia). reflexivity.
Qed.

Lemma be_unbc2_call : forall c s inp aux out a b len, cpu_ok c -> 
  len mod 16 = 0 -> 0 <= len -> 0 <= a -> 0 <= b -> a + len <= zlen inp -> b + len <= zlen out ->
  exists y, be_untransform_bc2_with_settings c (Ptr BIn a) (Ptr BOut b) len s (Mem inp aux out) =
  Ok (Mem inp aux (splice out b y)) /\ zlen y = len /\ be_bc2_layout (decorrelation_mode s) (split_colour_endpoints s) y = slice inp a len.
Proof.
  intros c s inp aux out a b len K Hm Hl Ha Hb Hi Ho.
  replace len with (16 * (len / 16)) by lia.
  destruct (be_untransform_bc2_ptr c s a b (len / 16) (Mem inp aux out) K Ha Hb ltac:(lia) ltac:(cbn [m_in]; lia) ltac:(cbn [m_out]; lia)) as (y & E & L & Y).
  cbn [m_in m_aux m_out] in *. exists y. repeat apply conj; [exact E| |exact Y].
  pose proof (zlen_slice _ inp a (16 * (len / 16)) ltac:(lia) ltac:(lia) ltac:(lia)) as S. unfold zlen in *. lia.
Qed.
Lemma be_unbc2_slice : forall c s x out, cpu_ok c -> 
  zlen x mod 16 = 0 -> zlen x <= zlen out ->
  exists y, be_untransform_bc2 c s x out = Ok (ROk tt, y ++ skipn (List.length x) out) /\ List.length y = List.length x /\ be_bc2_layout (decorrelation_mode s) (split_colour_endpoints s) y = x.
Proof.
  intros c s x out K Hm Ho. unfold be_untransform_bc2, checked.
  replace (zlen x mod 16 =? 0) with true by lia. cbn [negb]. replace (zlen out <? zlen x) with false by lia.
  destruct (be_unbc2_call c s x [] out 0 0 (zlen x) K Hm (zlen_nonneg _ x) ltac:(lia) ltac:(lia) ltac:(lia) ltac:(lia)) as (y & E & L & Y).
  exists y. rewrite slice_all in Y. rewrite E. cbn [bind m_out]. rewrite splice_at_0.
  assert (LL : List.length y = List.length x) by (unfold zlen in L; lia). rewrite LL. auto.
Qed.

Lemma be_bc3_call : forall c s inp aux out a b len, cpu_ok c -> 
  len mod 16 = 0 -> 0 <= len -> 0 <= a -> 0 <= b -> a + len <= zlen inp -> b + len <= zlen out ->
  be_transform_bc3_with_settings c (Ptr BIn a) (Ptr BOut b) len s (Mem inp aux out) =
  Ok (Mem inp aux (splice out b (be_bc3_layout (decorrelation_mode3 s) (split_alpha_endpoints s) (split_colour_endpoints3 s) (slice inp a len)))).
Proof.
  intros c s inp aux out a b len K Hm Hl Ha Hb Hi Ho.
  replace len with (16 * (len / 16)) by lia.
  exact (be_transform_bc3_ptr c s a b (len / 16) (Mem inp aux out) K Ha Hb ltac:(lia) ltac:(cbn [m_in]; lia) ltac:(cbn [m_out]; lia)).
Qed.
Lemma be_bc3_slice : forall c s x out, cpu_ok c -> 
  zlen x mod 16 = 0 -> zlen x <= zlen out ->
  be_transform_bc3 c s x out = Ok (ROk tt, be_bc3_layout (decorrelation_mode3 s) (split_alpha_endpoints s) (split_colour_endpoints3 s) x ++ skipn (List.length x) out).
Proof.
  intros c s x out K Hm Ho. unfold be_transform_bc3, checked.
  replace (zlen x mod 16 =? 0) with true by lia. cbn [negb]. replace (zlen out <? zlen x) with false by lia.
  pose proof (be_bc3_call c s x [] out 0 0 (zlen x) K Hm (zlen_nonneg _ x) ltac:(lia) ltac:(lia) ltac:(lia) ltac:(lia)) as E.
  rewrite E. cbn [bind m_out]. rewrite slice_all, splice_at_0.
  destruct (be_bc3_fam (decorrelation_mode3 s) (split_alpha_endpoints s) (split_colour_endpoints3 s)) as (sht & shu & FM).
  unfold be_bc3_layout at 2. rewrite (fam_len _ _ _ _ _ _ FM) by (unfold zlen in Hm; lia). reflexivity.
Qed.

Lemma be_unbc3_call : forall c s inp aux out a b len, cpu_ok c -> 
  len mod 16 = 0 -> 0 <= len -> 0 <= a -> 0 <= b -> a + len <= zlen inp -> b + len <= zlen out ->
  exists y, be_untransform_bc3_with_settings c (Ptr BIn a) (Ptr BOut b) len s (Mem inp aux out) =
  Ok (Mem inp aux (splice out b y)) /\ zlen y = len /\ be_bc3_layout (decorrelation_mode3 s) (split_alpha_endpoints s) (split_colour_endpoints3 s) y = slice inp a len.
Proof.
  intros c s inp aux out a b len K Hm Hl Ha Hb Hi Ho.
  replace len with (16 * (len / 16)) by lia.
  destruct (be_untransform_bc3_ptr c s a b (len / 16) (Mem inp aux out) K Ha Hb ltac:(lia) ltac:(cbn [m_in]; lia) ltac:(cbn [m_out]; lia)) as (y & E & L & Y).
  cbn [m_in m_aux m_out] in *. exists y. repeat apply conj; [exact E| |exact Y].
  pose proof (zlen_slice _ inp a (16 * (len / 16)) ltac:(lia) ltac:(lia) ltac:(lia)) as S. unfold zlen in *. lia.
Qed.
Lemma be_unbc3_slice : forall c s x out, cpu_ok c -> 
  zlen x mod 16 = 0 -> zlen x <= zlen out ->
  exists y, be_untransform_bc3 c s x out = Ok (ROk tt, y ++ skipn (List.length x) out) /\ List.length y = List.length x /\ be_bc3_layout (decorrelation_mode3 s) (split_alpha_endpoints s) (split_colour_endpoints3 s) y = x.
Proof.
  intros c s x out K Hm Ho. unfold be_untransform_bc3, checked.
  replace (zlen x mod 16 =? 0) with true by lia. cbn [negb]. replace (zlen out <? zlen x) with false by lia.
  destruct (be_unbc3_call c s x [] out 0 0 (zlen x) K Hm (zlen_nonneg _ x) ltac:(lia) ltac:(lia) ltac:(lia) ltac:(lia)) as (y & E & L & Y).
  exists y. rewrite slice_all in Y. rewrite E. cbn [bind m_out]. rewrite splice_at_0.
  assert (LL : List.length y = List.length x) by (unfold zlen in L; lia). rewrite LL. auto.
Qed.

