(** Files moved between machines of different byte order. *)
From Verif Require Import Base.Bytes Base.Res Model.Color565 Model.Kernel Model.Transform Model.Auto Model.Builders Model.Embed Model.Bundle Model.Dds
  Model.Handlers Model.BigEndian Model.BeTransform Model.BeFiles.
From Verif Require Import Spec.YCoCg Spec.Layout Spec.BigEndian Spec.Header Spec.Files Spec.Dds Spec.BeFiles Proofs.SliceFacts Proofs.BundleFacts Proofs.BeBundleFacts
  Proofs.BigEndianFacts Proofs.BigEndianProps Proofs.DdsFacts Proofs.DdsHandler Proofs.BeDdsHandler Proofs.DdsRestore Proofs.BeDdsRestore.
From Coq Require Import ZifyBool.

Lemma texture_none : forall k s x, decorrelation_mode s = VNone -> be_texture_layout k s x = texture_layout k s x.
Proof.
  intros [] s x HV; cbn [be_texture_layout texture_layout].
  - unfold be_bc1_layout, bc1_layout. apply lay_ext. rewrite HV. unfold be_bc1_fields, bc1_fields, be_colour_fields, colour_fields.
    destruct (split_colour_endpoints s); cbn [app]; same_fields.
  - unfold be_bc2_layout, bc2_layout. apply lay_ext. rewrite HV. unfold be_bc2_fields, bc2_fields, be_colour_fields, colour_fields.
    destruct (split_colour_endpoints s); cbn [app]; same_fields.
Qed.

Lemma core_transform_none : forall k c d j s x out, supported c -> (c_debug c = true -> x <> []) -> decorrelation_mode s = VNone ->
  be_core_transform k (big_endian_cpu d j) s x out = core_transform k c s x out.
Proof.
  intros [] c d j s x out (K & VL) HD HV; cbn [be_core_transform core_transform].
  - apply lC66_bc1_no_decorrelation_partial; auto.
  - apply lC66_bc2_no_decorrelation_partial; auto.
Qed.

Lemma core_untransform_none : forall k c d j s y out, supported c -> (c_debug c = true -> y <> []) -> decorrelation_mode s = VNone ->
  zlen y mod codec_block k = 0 -> zlen y <= zlen out ->
  be_core_untransform_ptr k (big_endian_cpu d j) (Ptr BIn 0) (Ptr BOut 0) (zlen y) s (Mem y [] out) =
  core_untransform_ptr k c (Ptr BIn 0) (Ptr BOut 0) (zlen y) s (Mem y [] out).
Proof.
  intros k c d j s y out K HD HV Hm Ho.
  destruct (core_untransform_ok k c s y out K HD Hm Ho) as (x & E & _ & L & T).
  destruct (be_core_untransform_ok k (big_endian_cpu d j) s y out (big_endian_ok d j) Hm Ho) as (x' & E' & _ & L' & T').
  assert (x' = x) as Q.
  { apply (layout_inj k s); [unfold zlen in *; rewrite L'; exact Hm|lia|]. rewrite T. rewrite <- (texture_none k s x' HV). exact T'. }
  rewrite E, E', Q. reflexivity.
Qed.

Section Same.
Context {St Er : Type}.
Variables (show : Er -> string) (c : cfg) (j : byte) (v : env).
Hypothesis K : supported c.
Notation be := (big_endian_cpu (c_debug c) j).

Lemma dispatch_same : forall (t : bundle St Er) f x out st, plain_bundle t -> (c_debug c = true -> x <> []) ->
  be_dispatch_transform show be v t f x out st = dispatch_transform show c v t f x out st.
Proof.
  intros t f x out st (P1 & P2) HD. unfold be_dispatch_transform, dispatch_transform. destruct (zlen out <? zlen x); [reflexivity|].
  assert (G : forall k b, plain_builder (Some b) -> be_transform_slice_with_details show k be v b x out st = transform_slice_with_details show k c v b x out st).
  { intros k [b|b] PB; [|destruct PB]. cbn [be_transform_slice_with_details transform_slice_with_details]. unfold be_manual_transform, manual_transform.
    rewrite (core_transform_none k c (c_debug c) j (mb_settings b) x out K HD PB). reflexivity. }
  destruct f; try reflexivity.
  - destruct (b_bc1 t) as [b|]; [|reflexivity]. rewrite (G CBc1 b P1). reflexivity.
  - destruct (b_bc2 t) as [b|]; [|reflexivity]. rewrite (G CBc2 b P2). reflexivity.
Qed.

Lemma undispatch_same : forall h x out, ~ names_decorrelation h -> (c_debug c = true -> x <> []) ->
  be_dispatch_untransform be h x out = dispatch_untransform c h x out.
Proof.
  intros h x out N HD. unfold be_dispatch_untransform, dispatch_untransform. destruct (zlen out <? zlen x) eqn:Z; [reflexivity|].
  unfold names_decorrelation in N.
  destruct (header_format h) as [[]|]; try reflexivity.
  - destruct (from_header bc1_details h) as [s|e]; [|reflexivity]. cbn [codec_block]. destruct (zlen x mod 8 =? 0) eqn:M; [|reflexivity]. cbn [negb].
    rewrite (core_untransform_none CBc1 c (c_debug c) j s x out K HD); [reflexivity| |cbn [codec_block]; lia|lia].
    destruct (decorrelation_mode s) eqn:V; [reflexivity|exfalso; apply N; left; split; [reflexivity|]; exists s; split; [reflexivity|rewrite V; discriminate]..].
  - destruct (from_header bc2_details h) as [s|e]; [|reflexivity]. cbn [codec_block]. destruct (zlen x mod 16 =? 0) eqn:M; [|reflexivity]. cbn [negb].
    rewrite (core_untransform_none CBc2 c (c_debug c) j s x out K HD); [reflexivity| |cbn [codec_block]; lia|lia].
    destruct (decorrelation_mode s) eqn:V; [reflexivity|exfalso; apply N; right; split; [reflexivity|]; exists s; split; [reflexivity|rewrite V; discriminate]..].
Qed.

Lemma bind_ext : forall A B (e : res A) (f g : A -> res B), (forall a, e = Ok a -> f a = g a) -> (do x <- e ;; f x) = (do x <- e ;; g x).
Proof. intros A B e f g H. destruct e; cbn [bind]; auto. Qed.

Hypothesis HU : 2 ^ 32 - 1 <= usize_max v.

Lemma transform_same : forall (t : bundle St Er) x out st, plain_bundle t ->
  (c_debug c = true -> forall i, parse_dds true x = Ok (Some i) -> 0 < i_data_length i) ->
  be_dds_transform_bundle show be v t x out st = dds_transform_bundle show c v t x out st.
Proof.
  intros t x out st PB HD. unfold be_dds_transform_bundle, dds_transform_bundle. change (c_debug be) with (c_debug c).
  destruct (zlen out <? zlen x); [reflexivity|]. apply bind_ext. intros [i|] P; [|reflexivity].
  destruct (parse_facts _ _ _ (proj2 (parse_dds_facts _ _ _ P))) as (_ & _ & _ & _ & Hn & Ho & Hx).
  apply bind_ext. intros tot _. destruct (zlen x <? tot); [reflexivity|].
  apply bind_ext. intros hd _. apply bind_ext. intros o _. destruct (dds_format_to_transform_format (i_format i) false) as [f|e]; [|reflexivity].
  apply bind_ext. intros tend Et. apply bind_ext. intros T ET. apply bind_ext. intros tg _. rewrite dispatch_same; [reflexivity|exact PB|].
  intros D ->. apply range_facts in ET. rewrite zlen_nil in ET. rewrite D in P. specialize (HD D i P).
  destruct (usize_add_ok _ _ _ _ _ Et Ho Hn HU); lia.
Qed.

Lemma untransform_same : forall x out, ~ names_decorrelation (word x 0) ->
  (c_debug c = true -> forall i, parse_dds_ignore_magic true x = Ok (Some i) -> 0 < i_data_length i) ->
  be_dds_untransform be v x out = dds_untransform c v x out.
Proof.
  intros x out N HD. unfold be_dds_untransform, dds_untransform. change (c_debug be) with (c_debug c).
  destruct (zlen x <? 4); [reflexivity|]. destruct (zlen out <? zlen x); [reflexivity|]. apply bind_ext. intros [i|] P; [|reflexivity].
  destruct (parse_facts _ _ _ P) as (_ & _ & _ & _ & Hn & Ho & Hx).
  apply bind_ext. intros tot _. destruct (zlen x <? tot); [reflexivity|].
  apply bind_ext. intros o1 _. apply bind_ext. intros hd _. apply bind_ext. intros o2 _.
  apply bind_ext. intros tend Et. apply bind_ext. intros T ET. apply bind_ext. intros tg _. rewrite undispatch_same; [reflexivity|exact N|].
  intros D ->. apply range_facts in ET. rewrite zlen_nil in ET. rewrite D in P. specialize (HD D i P).
  destruct (usize_add_ok _ _ _ _ _ Et Ho Hn HU); lia.
Qed.
End Same.

(** ** Moved files *)
Lemma put_back : forall (x T' : list byte) off n, 0 <= off -> 0 <= n -> off + n <= zlen x -> zlen T' = n ->
  List.length (slice x 0 off ++ T' ++ slice x (off + n) (zlen x - (off + n))) = List.length x /\
  (slice x 0 off ++ T' ++ slice x (off + n) (zlen x - (off + n)) = x <-> T' = slice x off n).
Proof.
  intros x T' off n H0 H1 H2 H3. split.
  - apply zlen_eq. rewrite !zlen_app, !zlen_slice by lia. lia.
  - split.
    + intros E. rewrite (cut3 x off n) in E at 4 by lia. apply app_inv_head in E. apply app_inv_tail in E. exact E.
    + intros ->. symmetry. apply cut3; lia.
Qed.
Lemma firstn_same : forall (a b x : list byte), List.length a = List.length x -> firstn (List.length x) (a ++ b) = a.
Proof. intros a b x E. rewrite <- E. rewrite firstn_app, firstn_all, Nat.sub_diag. apply app_nil_r. Qed.

(** Transformed on a little-endian machine, restored on a big-endian one. *)
Lemma moved_to_be : forall (St Er : Type) (show : Er -> string) (c : cfg) (d : bool) (j : byte) (v1 v2 : env) (t : bundle St Er)
    (x out out2 : list byte) (st st' : St) (y : list byte) (i : dds_info),
  supported c -> parse_dds (c_debug c) x = Ok (Some i) -> (c_debug c = true -> 0 < i_data_length i) ->
  (d = true -> c_debug c = false -> levels_fit x) ->
  2 ^ 32 - 1 <= usize_max v1 -> zlen x <= usize_max v2 ->
  dds_transform_bundle show c v1 t x out st = Ok (ROk tt, y, st') ->
  zlen x <= zlen out2 -> (i_data_offset i + i_data_length i < zlen x -> zlen out2 = zlen x) ->
  let T := slice x (i_data_offset i) (i_data_length i) in
  exists k s z, word y 0 = codec_header k s /\
    be_dds_untransform (big_endian_cpu d j) v2 (firstn (List.length x) y) out2 = Ok (ROk tt, z) /\
    (firstn (List.length x) z = x <-> be_texture_layout k s T = texture_layout k s T).
Proof.
  intros St Er show c d j v1 v2 t x out out2 st st' y i K P HD HF HU1 HU2 E Hout2 Htrail T.
  destruct (transform_success show c v1 t x out st y st' i K P HD HU1 E) as (k & s & FM & _ & Hm & Hlen & Hout & _ & Y).
  destruct (parse_facts _ _ _ (proj2 (parse_dds_facts _ _ _ P))) as (_ & _ & HB & _ & Hn & Ho & Hx).
  assert (LT : zlen T = i_data_length i) by (apply zlen_slice; lia).
  assert (LL : zlen (texture_layout k s T) = i_data_length i) by (unfold zlen; rewrite layout_len by (rewrite LT; exact Hm); exact LT).
  destruct (be_restore (big_endian_cpu d j) (c_debug c) v2 x out2 (texture_layout k s T) i k s (big_endian_ok d j) P HF Hlen Hm LL HU2 Hout2 Htrail)
    as (T' & LT' & ET' & E').
  destruct (put_back x T' (i_data_offset i) (i_data_length i) ltac:(lia) ltac:(lia) Hlen LT') as (PL & PE).
  exists k, s. eexists. split; [rewrite Y; apply word_head, codec_header_bound|]. split.
  - rewrite Y. rewrite app4_length; [exact E'|]. fold T. rewrite LL. change (zlen (u32_bytes (codec_header k s))) with 4. rewrite !zlen_slice by lia. unfold zlen; lia.
  - rewrite firstn_same by exact PL. rewrite PE. fold T. split.
    + intros <-. exact ET'.
    + intros Q. apply (be_layout_inj k s); [rewrite LT'; exact Hm|apply zlen_eq; lia|]. rewrite ET'. symmetry. exact Q.
Qed.

(** And the other way round. *)
Lemma moved_to_le : forall (St Er : Type) (show : Er -> string) (c : cfg) (d : bool) (j : byte) (v1 v2 : env) (t : bundle St Er)
    (x out out2 : list byte) (st st' : St) (y : list byte) (i : dds_info),
  supported c -> parse_dds d x = Ok (Some i) -> (c_debug c = true -> 0 < i_data_length i) ->
  (c_debug c = true -> d = false -> levels_fit x) ->
  2 ^ 32 - 1 <= usize_max v1 -> zlen x <= usize_max v2 ->
  be_dds_transform_bundle show (big_endian_cpu d j) v1 t x out st = Ok (ROk tt, y, st') ->
  zlen x <= zlen out2 -> (i_data_offset i + i_data_length i < zlen x -> zlen out2 = zlen x) ->
  let T := slice x (i_data_offset i) (i_data_length i) in
  exists k s z, word y 0 = codec_header k s /\
    dds_untransform c v2 (firstn (List.length x) y) out2 = Ok (ROk tt, z) /\
    (firstn (List.length x) z = x <-> be_texture_layout k s T = texture_layout k s T).
Proof.
  intros St Er show c d j v1 v2 t x out out2 st st' y i K P HD HF HU1 HU2 E Hout2 Htrail T.
  destruct (be_transform_success show (big_endian_cpu d j) v1 t x out st y st' i (big_endian_ok d j) P HU1 E) as (k & s & FM & _ & Hm & Hlen & Hout & _ & Y).
  destruct (parse_facts _ _ _ (proj2 (parse_dds_facts _ _ _ P))) as (_ & _ & HB & _ & Hn & Ho & Hx).
  assert (LT : zlen T = i_data_length i) by (apply zlen_slice; lia).
  assert (LL : zlen (be_texture_layout k s T) = i_data_length i) by (unfold zlen; rewrite be_layout_len by (rewrite LT; exact Hm); exact LT).
  destruct (restore c d v2 x out2 (be_texture_layout k s T) i k s K P HD HF Hlen Hm LL HU2 Hout2 Htrail)
    as (T' & LT' & ET' & E').
  destruct (put_back x T' (i_data_offset i) (i_data_length i) ltac:(lia) ltac:(lia) Hlen LT') as (PL & PE).
  exists k, s. eexists. split; [rewrite Y; apply word_head, codec_header_bound|]. split.
  - rewrite Y. rewrite app4_length; [exact E'|]. fold T. rewrite LL. change (zlen (u32_bytes (codec_header k s))) with 4. rewrite !zlen_slice by lia. unfold zlen; lia.
  - rewrite firstn_same by exact PL. rewrite PE. fold T. split.
    + intros <-. symmetry. exact ET'.
    + intros Q. apply (layout_inj k s); [rewrite LT'; exact Hm|apply zlen_eq; lia|]. rewrite ET'. exact Q.
Qed.

(** Bundles without decorrelation write headers that name none. *)
Lemma codec_header_inj : forall k1 s1 k2 s2, codec_header k1 s1 = codec_header k2 s2 -> k1 = k2 /\ s1 = s2.
Proof.
  intros k1 s1 k2 s2 E. destruct (codec_header_decodes k1 s1) as (F1 & D1), (codec_header_decodes k2 s2) as (F2 & D2). rewrite E in F1, D1.
  rewrite F1 in F2. destruct k1, k2; try discriminate F2; (split; [reflexivity|]); rewrite D1 in D2; injection D2 as D2; exact D2.
Qed.
Lemma plain_dispatch : forall {St Er} (show : Er -> string) c v (t : bundle St Er) k s x out st y st', plain_bundle t ->
  dispatch_transform show c v t (codec_format k) x out st = Ok (ROk (codec_header k s), y, st') -> decorrelation_mode s = VNone.
Proof.
  intros St Er show c v t k s x out st y st' (P1 & P2) E. unfold dispatch_transform in E. destruct (zlen out <? zlen x); [discriminate|].
  destruct k; cbn [codec_format] in E.
  - destruct (b_bc1 t) as [[b|b]|]; [|destruct P1|discriminate]. cbn [transform_slice_with_details plain_builder] in *.
    destruct (manual_transform _ _ _ _ _) as [[[u|e] o]| |]; cbn [bind] in E; try discriminate.
    assert (Q : codec_header CBc1 (mb_settings b) = codec_header CBc1 s) by (injection E; intros; assumption).
    apply codec_header_inj in Q. destruct Q as (_ & <-). exact P1.
  - destruct (b_bc2 t) as [[b|b]|]; [|destruct P2|discriminate]. cbn [transform_slice_with_details plain_builder] in *.
    destruct (manual_transform _ _ _ _ _) as [[[u|e] o]| |]; cbn [bind] in E; try discriminate.
    assert (Q : codec_header CBc2 (mb_settings b) = codec_header CBc2 s) by (injection E; intros; assumption).
    apply codec_header_inj in Q. destruct Q as (_ & <-). exact P2.
Qed.
Lemma be_plain_dispatch : forall {St Er} (show : Er -> string) c v (t : bundle St Er) k s x out st y st', plain_bundle t ->
  be_dispatch_transform show c v t (codec_format k) x out st = Ok (ROk (codec_header k s), y, st') -> decorrelation_mode s = VNone.
Proof.
  intros St Er show c v t k s x out st y st' (P1 & P2) E. unfold be_dispatch_transform in E. destruct (zlen out <? zlen x); [discriminate|].
  destruct k; cbn [codec_format] in E.
  - destruct (b_bc1 t) as [[b|b]|]; [|destruct P1|discriminate]. cbn [be_transform_slice_with_details plain_builder] in *.
    destruct (be_manual_transform _ _ _ _ _) as [[[u|e] o]| |]; cbn [bind] in E; try discriminate.
    assert (Q : codec_header CBc1 (mb_settings b) = codec_header CBc1 s) by (injection E; intros; assumption).
    apply codec_header_inj in Q. destruct Q as (_ & <-). exact P1.
  - destruct (b_bc2 t) as [[b|b]|]; [|destruct P2|discriminate]. cbn [be_transform_slice_with_details plain_builder] in *.
    destruct (be_manual_transform _ _ _ _ _) as [[[u|e] o]| |]; cbn [bind] in E; try discriminate.
    assert (Q : codec_header CBc2 (mb_settings b) = codec_header CBc2 s) by (injection E; intros; assumption).
    apply codec_header_inj in Q. destruct Q as (_ & <-). exact P2.
Qed.

Lemma plain_moved_to_be : forall (St Er : Type) (show : Er -> string) (c : cfg) (d : bool) (j : byte) (v1 v2 : env) (t : bundle St Er)
    (x out out2 : list byte) (st st' : St) (y : list byte) (i : dds_info),
  supported c -> parse_dds (c_debug c) x = Ok (Some i) -> (c_debug c = true -> 0 < i_data_length i) ->
  (d = true -> c_debug c = false -> levels_fit x) ->
  2 ^ 32 - 1 <= usize_max v1 -> zlen x <= usize_max v2 -> plain_bundle t ->
  dds_transform_bundle show c v1 t x out st = Ok (ROk tt, y, st') ->
  zlen x <= zlen out2 -> (i_data_offset i + i_data_length i < zlen x -> zlen out2 = zlen x) ->
  exists z, be_dds_untransform (big_endian_cpu d j) v2 (firstn (List.length x) y) out2 = Ok (ROk tt, z) /\ firstn (List.length x) z = x.
Proof.
  intros St Er show c d j v1 v2 t x out out2 st st' y i K P HD HF HU1 HU2 PB E Hout2 Htrail.
  destruct (moved_to_be St Er show c d j v1 v2 t x out out2 st st' y i K P HD HF HU1 HU2 E Hout2 Htrail) as (k & s & z & W & EU & Q).
  exists z. split; [exact EU|]. apply Q.
  destruct (transform_success show c v1 t x out st y st' i K P HD HU1 E) as (k' & s' & _ & DP & _ & _ & _ & _ & Y).
  assert (W' : word y 0 = codec_header k' s') by (rewrite Y; apply word_head, codec_header_bound).
  rewrite W in W'. apply codec_header_inj in W'. destruct W' as (-> & ->). apply texture_none. exact (plain_dispatch _ _ _ _ _ _ _ _ _ _ _ PB DP).
Qed.
Lemma plain_moved_to_le : forall (St Er : Type) (show : Er -> string) (c : cfg) (d : bool) (j : byte) (v1 v2 : env) (t : bundle St Er)
    (x out out2 : list byte) (st st' : St) (y : list byte) (i : dds_info),
  supported c -> parse_dds d x = Ok (Some i) -> (c_debug c = true -> 0 < i_data_length i) ->
  (c_debug c = true -> d = false -> levels_fit x) ->
  2 ^ 32 - 1 <= usize_max v1 -> zlen x <= usize_max v2 -> plain_bundle t ->
  be_dds_transform_bundle show (big_endian_cpu d j) v1 t x out st = Ok (ROk tt, y, st') ->
  zlen x <= zlen out2 -> (i_data_offset i + i_data_length i < zlen x -> zlen out2 = zlen x) ->
  exists z, dds_untransform c v2 (firstn (List.length x) y) out2 = Ok (ROk tt, z) /\ firstn (List.length x) z = x.
Proof.
  intros St Er show c d j v1 v2 t x out out2 st st' y i K P HD HF HU1 HU2 PB E Hout2 Htrail.
  destruct (moved_to_le St Er show c d j v1 v2 t x out out2 st st' y i K P HD HF HU1 HU2 E Hout2 Htrail) as (k & s & z & W & EU & Q).
  exists z. split; [exact EU|]. apply Q.
  destruct (be_transform_success show (big_endian_cpu d j) v1 t x out st y st' i (big_endian_ok d j) P HU1 E) as (k' & s' & _ & DP & _ & _ & _ & _ & Y).
  assert (W' : word y 0 = codec_header k' s') by (rewrite Y; apply word_head, codec_header_bound).
  rewrite W in W'. apply codec_header_inj in W'. destruct W' as (-> & ->). apply texture_none. exact (be_plain_dispatch _ _ _ _ _ _ _ _ _ _ _ PB DP).
Qed.
