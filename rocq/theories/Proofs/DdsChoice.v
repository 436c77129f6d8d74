(** Which settings the DDS handler writes with automatic builders. *)
From Verif Require Import Base.Bytes Base.Res Model.Color565 Model.Kernel Model.Transform Model.Auto Model.Builders Model.Embed Model.Bundle Model.Dds Model.CApi
  Spec.Layout Spec.Estimator Spec.Files Spec.Header Spec.Dds Spec.ZstdSizes Spec.CChoice Proofs.AutoProps Proofs.CApiFacts Proofs.BundleFacts Proofs.EmbedFacts Proofs.DdsFacts Proofs.DdsHandler Proofs.CChoice.
From Coq Require Import ZifyBool ZifyNat.
Open Scope list_scope.
Open Scope Z_scope.

Lemma codec_header_inj : forall k s s', codec_header k s = codec_header k s' -> s = s'.
Proof. intros [] s s' H; [pose proof (header_injective (DBc1 s) (DBc1 s') H) as Q|pose proof (header_injective (DBc2 s) (DBc2 s') H) as Q]; congruence. Qed.

Lemma dds_choice : forall (St Er : Type) (show : Er -> string) (c : cfg) (v : env) (before after : list (install St Er)) (k : codec) (b : auto_builder St Er)
    (told : list byte -> Z) (x out : list byte) (st : St) (y : list byte) (st' : St) (i : dds_info),
  supported c -> parse_dds (c_debug c) x = Ok (Some i) -> (c_debug c = true -> 0 < i_data_length i) -> 2 ^ 32 - 1 <= usize_max v ->
  i_format i = (match k with CBc1 => DBC1 | CBc2 => DBC2 end) -> Forall (fun j => install_codec j <> k) after ->
  (forall st d n z st', estimate_compressed_size (ab_estimator b) st d n = (ROk z, st') -> z = told d) -> (forall d, told d < usize_max v) ->
  dds_transform_bundle show c v (installed (before ++ WithAuto k b :: after)) x out st = Ok (ROk tt, y, st') ->
  let texture := slice x (i_data_offset i) (i_data_length i) in
  exists s, firstn 4 y = u32_bytes (codec_header k s) /\ slice y (i_data_offset i) (i_data_length i) = texture_layout k s texture /\
    candidate (ab_use_all b) (decorrelation_mode s) /\
    forall s', candidate (ab_use_all b) (decorrelation_mode s') ->
      compressed_sum told (codec_shown k texture s) <= compressed_sum told (codec_shown k texture s').
Proof.
  intros St Er show c v before after k b told x out st y st' i K P HD HU F FA HT HB H texture.
  destruct (transform_success show c v _ x out st y st' i K P HD HU H) as (k1 & s & F1 & D & Hm & Hx & Ho & _ & Y). fold texture in D, Y.
  destruct (parse_facts _ _ _ (proj2 (parse_dds_facts _ _ _ P))) as (_ & _ & _ & _ & Hn & Hoff & _).
  assert (k1 = k) as -> by (rewrite F in F1; destruct k, k1; (reflexivity || discriminate F1)).
  assert (LT : zlen texture = i_data_length i) by (apply zlen_slice; lia).
  assert (LoT : zlen (slice out (i_data_offset i) (i_data_length i)) = i_data_length i) by (apply zlen_slice; lia).
  pose proof (last_installed St Er show c v before after (WithAuto k b) texture (slice out (i_data_offset i) (i_data_length i)) st FA) as W. cbn [install_codec] in W.
  rewrite W in D. clear W. rewrite dispatch_auto in D by lia.
  destruct (core_auto k c v (ab_estimator b) (ab_use_all b) texture (slice out (i_data_offset i) (i_data_length i)) st) as [[[[s1|e1] y1] st1]| |] eqn:E; cbn [bind] in D; try discriminate D.
  assert (s1 = s) as -> by (apply (codec_header_inj k); congruence).
  assert (HD' : c_debug c = true -> texture <> []) by (intros Q Z0; specialize (HD Q); rewrite Z0 in LT; change (zlen (@nil byte)) with 0 in LT; lia).
  exists s. split; [rewrite Y; reflexivity|]. split.
  - assert (LL : zlen (texture_layout k s texture) = i_data_length i) by (rewrite <- LT; apply (f_equal Z.of_nat); apply layout_len; rewrite LT; exact Hm).
    rewrite Y. rewrite app_assoc.
    assert (LH : zlen (u32_bytes (codec_header k s) ++ slice x 4 (i_data_offset i - 4)) = i_data_offset i)
      by (rewrite zlen_app; rewrite zlen_slice by lia; change (zlen (u32_bytes (codec_header k s))) with 4; lia).
    unfold slice at 1. unfold zlen in LH, LL. rewrite skipn_app, skipn_all2 by lia. replace (_ - _)%nat with 0%nat by lia. cbn [skipn List.app].
    rewrite firstn_app. replace (_ - List.length (texture_layout k s texture))%nat with 0%nat by lia. cbn [firstn]. rewrite app_nil_r. apply firstn_all2. lia.
  - destruct (core_auto_total k c v (ab_estimator b) (ab_use_all b) texture (slice out (i_data_offset i) (i_data_length i)) st K HD' ltac:(rewrite LT; exact Hm) ltac:(lia))
      as (r & y2 & st2 & E2 & Q). rewrite E in E2. injection E2 as <- <- <-. destruct Q as (C & _). split; [exact C|].
    exact (core_choice told k c v (ab_estimator b) (ab_use_all b) texture _ st s y1 st1 K HD' HT HB E).
Qed.
