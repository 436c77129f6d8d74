(** Proofs/DdsRestore.v for a big-endian machine (generated by tools/gen_be.py). *)
From Verif Require Import Base.Bytes Base.Res Model.Color565 Model.Kernel Model.Transform Model.Auto Model.Builders Model.Embed Model.Bundle Model.Dds
  Model.BeTransform Model.BeFiles.
From Verif Require Import Spec.Layout Spec.Estimator Spec.Header Spec.Files Spec.Dds Spec.BeFiles Proofs.SliceFacts Proofs.AutoTheorems Proofs.EmbedFacts
  Proofs.BundleFacts Proofs.BeBundleFacts Proofs.DdsFacts Proofs.DdsHandler Proofs.BeDdsHandler.
From Coq Require Import ZifyBool.

Lemma be_restore : forall (c : cfg) (d : bool) (v : env) (x out2 L : list byte) (i : dds_info) k s,
  cpu_ok c -> parse_dds d x = Ok (Some i) ->
   (c_debug c = true -> d = false -> levels_fit x) ->
  i_data_offset i + i_data_length i <= zlen x -> i_data_length i mod codec_block k = 0 -> zlen L = i_data_length i ->
  zlen x <= usize_max v ->
  zlen x <= zlen out2 -> (i_data_offset i + i_data_length i < zlen x -> zlen out2 = zlen x) ->
  let off := i_data_offset i in let n := i_data_length i in
  exists T', zlen T' = n /\ be_texture_layout k s T' = L /\
    be_dds_untransform c v (u32_bytes (codec_header k s) ++ slice x 4 (off - 4) ++ L ++ slice x (off + n) (zlen x - (off + n))) out2 =
      Ok (ROk tt, (slice x 0 off ++ T' ++ slice x (off + n) (zlen x - (off + n))) ++ skipn (List.length x) out2).
Proof.
  intros c d v x out2 L i k s K P HF Hlen Hm LL HU Hout2 Htrail off n.
  destruct (parse_dds_facts _ _ _ P) as (HM & P').
  destruct (parse_facts _ _ _ P') as (_ & _ & HB & _ & Hn & Ho & Hx).
  fold off in Ho, Hlen, Htrail, HB |- *. fold n in Hn, Hlen, Htrail, Hm, LL |- *.
  set (H := slice x 4 (off - 4)) in *. set (R := slice x (off + n) (zlen x - (off + n))) in *. set (T := slice x off n) in *.
  set (oM := slice out2 0 4). set (oH := slice out2 4 (off - 4)). set (oT := slice out2 off n). set (oR := slice out2 (off + n) (zlen out2 - (off + n))).
  assert (LM : zlen (slice x 0 4) = 4) by (apply zlen_slice; lia).
  assert (LH : zlen H = off - 4) by (apply zlen_slice; lia). assert (LT : zlen T = n) by (apply zlen_slice; lia). assert (LR : zlen R = zlen x - (off + n)) by (apply zlen_slice; lia).
  assert (LoM : zlen oM = 4) by (apply zlen_slice; lia).
  assert (LoH : zlen oH = off - 4) by (apply zlen_slice; lia). assert (LoT : zlen oT = n) by (apply zlen_slice; lia). assert (LoR : zlen oR = zlen out2 - (off + n)) by (apply zlen_slice; lia).
  assert (HD4 : forall l : list byte, slice l 0 off = slice l 0 4 ++ slice l 4 (off - 4)).
  { intros l. replace off with (4 + (off - 4)) at 1 by lia. rewrite slice_app_split by lia. reflexivity. }
  assert (CUT : forall l : list byte, off + n <= zlen l -> l = slice l 0 4 ++ slice l 4 (off - 4) ++ slice l off n ++ slice l (off + n) (zlen l - (off + n))).
  { intros l Hl. rewrite (cut3 l off n) at 1 by lia. rewrite HD4, <- app_assoc. reflexivity. }
  assert (X : x = slice x 0 4 ++ H ++ T ++ R) by (apply CUT; lia). assert (O : out2 = oM ++ oH ++ oT ++ oR) by (apply CUT; lia).
  assert (MG : slice x 0 4 = u32_bytes DDS_MAGIC) by (apply bytes_of_word; [lia|unfold has_magic in HM; apply Z.eqb_eq in HM; exact HM]).
  set (h := u32_bytes (codec_header k s)) in *. assert (Lh : zlen h = 4) by reflexivity.
  assert (P2 : parse_dds_ignore_magic (c_debug c) (h ++ H ++ L ++ R) = Ok (Some i)).
  { rewrite (parse_cong (c_debug c) x).
    - exact (parse_other _ _ _ _ P' HF).
    - rewrite X at 1. rewrite !zlen_app. lia.
    - intros o H1 H2. rewrite X at 1. apply word_mid; [apply zlen_eq; lia|lia|lia]. }
  destruct (be_undispatch_ok c k s L oT K) as (T' & E & LT' & ET').
  { rewrite LL. exact Hm. }
  { lia. }
  assert (ZT' : zlen T' = n) by (unfold zlen in *; lia).
  exists T'. split; [exact ZT'|]. split; [exact ET'|]. rewrite O at 1.
  rewrite (be_untransform_pieces c v h H L R oM oH oT oR i P2) by (unfold off, n in *; lia).
  replace (word (h ++ H ++ L ++ R) 0) with (codec_header k s) by (symmetry; apply word_head, codec_header_bound). rewrite E.
  cbn [bind]. cbv zeta. rewrite skipn_all2 by (apply Nat.eq_le_incl, zlen_eq; lia). rewrite app_nil_r.
  rewrite app_assoc. rewrite splice_mid; [|rewrite zlen_app; change (zlen (u32_bytes DDS_MAGIC)) with 4; lia|apply zlen_eq; lia].
  rewrite <- MG.
  assert (SR : oR = slice out2 (off + n) (zlen R) ++ skipn (List.length x) out2).
  { unfold oR. replace (zlen out2 - (off + n)) with (zlen R + (zlen out2 - zlen x)) by lia. rewrite slice_app_split by lia. f_equal.
    unfold slice. rewrite LR. unfold zlen in *. rewrite firstn_all2 by (rewrite skipn_length; lia). f_equal. lia. }
  rewrite HD4. fold H.
  destruct (0 <? zlen R) eqn:Z.
  - specialize (Htrail ltac:(lia)). rewrite app_assoc. rewrite copy_tail by (rewrite ?zlen_app; lia). cbn [bind].
    rewrite (skipn_all2 (n := List.length x)) by (apply Nat.eq_le_incl, zlen_eq; lia). rewrite app_nil_r. rewrite <- (app_assoc _ T' R). reflexivity.
  - cbn [bind]. rewrite SR. assert (RN : R = []) by (destruct R; [reflexivity|rewrite zlen_cons in Z; pose proof (zlen_nonneg _ R); lia]).
    rewrite RN. change (zlen (@nil byte)) with 0. rewrite app_nil_r. rewrite <- !app_assoc. reflexivity.
Qed.

