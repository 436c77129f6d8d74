From Verif Require Import Base.Bytes Base.Res Model.Bc7Bits.

Lemma zlt_cases8 : forall z (P : Z -> Prop),
  P 0 -> P 1 -> P 2 -> P 3 -> P 4 -> P 5 -> P 6 -> P 7 -> 0 <= z <= 7 -> P z.
Proof.
  intros z P H0 H1 H2 H3 H4 H5 H6 H7 Hz.
  assert (z = 0 \/ z = 1 \/ z = 2 \/ z = 3 \/ z = 4 \/ z = 5 \/ z = 6 \/ z = 7) as C by lia.
  destruct C as [->|[->|[->|[->|[->|[->|[->| ->]]]]]]]; assumption.
Qed.

(** (start, end, byte) sweep for extraction: the field of width end-start+1. *)
Lemma extract_value : forall debug byte start end_,
  0 <= start -> start <= end_ -> end_ <= 7 -> 0 <= byte < 256 ->
  extract_msb_bits debug byte start end_ = Ok (byte / 2 ^ (7 - end_) mod 2 ^ (end_ - start + 1)).
Proof.
  intros debug byte start end_ H1 H2 H3 Hb.
  unfold extract_msb_bits, debug_assert, sub_u8.
  replace (start <=? end_) with true by lia. replace (end_ <=? 7) with true by lia.
  rewrite !andb_false_r. cbn [bind].
  replace (end_ <? start) with false by lia. replace (7 <? end_) with false by lia. cbn [bind].
  f_equal. rewrite (Z.mod_small (7 - end_) 8) by lia.
  rewrite (Z.mod_small (end_ - start + 1) 256) by lia.
  rewrite (Z.mod_small (end_ - start + 1) 32) by lia.
  rewrite Z.shiftl_mul_pow2, Z.mul_1_l by lia.
  assert (2 ^ (end_ - start + 1) <= 2 ^ 8) by (apply Z.pow_le_mono_r; lia).
  assert (0 < 2 ^ (end_ - start + 1)) by (apply Z.pow_pos_nonneg; lia).
  change (2 ^ 8) with 256 in *.
  rewrite (Z.mod_small _ 256) by lia.
  rewrite Z.shiftr_div_pow2 by lia.
  replace (2 ^ (end_ - start + 1) - 1) with (Z.ones (end_ - start + 1))
    by (rewrite Z.ones_equiv; lia).
  apply Z.land_ones. lia.
Qed.

Lemma insert_ok_bits : forall debug byte value start end_,
  0 <= start -> start <= end_ -> end_ <= 7 -> 0 <= byte < 256 -> 0 <= value < 256 ->
  exists r, insert_msb_bits debug byte value start end_ = Ok r /\ 0 <= r < 256 /\
    forall i, 0 <= i <= 7 ->
      Z.testbit r (7 - i) =
      if (start <=? i) && (i <=? end_) then Z.testbit value (end_ - i) else Z.testbit byte (7 - i).
Proof.
  intros debug byte value start end_ H1 H2 H3 Hb Hv.
  unfold insert_msb_bits, debug_assert, sub_u8.
  replace (start <=? end_) with true by lia. replace (end_ <=? 7) with true by lia.
  rewrite !andb_false_r. cbn [bind].
  replace (end_ <? start) with false by lia. replace (7 <? end_) with false by lia. cbn [bind].
  rewrite (Z.mod_small (end_ - start + 1) 256) by lia.
  rewrite (Z.mod_small (end_ - start + 1) 32) by lia.
  rewrite (Z.mod_small (7 - end_) 32) by lia.
  rewrite (Z.mod_small (7 - end_) 8) by lia.
  rewrite (Z.shiftl_mul_pow2 1), Z.mul_1_l by lia.
  replace (2 ^ (end_ - start + 1) - 1) with (Z.ones (end_ - start + 1))
    by (rewrite Z.ones_equiv; lia).
  set (m := Z.shiftl (Z.ones (end_ - start + 1)) (7 - end_) mod 256).
  assert (Hm : forall k, 0 <= k -> Z.testbit m k =
     ((k <? 8) && (7 - end_ <=? k) && (k <=? 7 - start))%bool).
  { intros k Hk. unfold m. change 256 with (2 ^ 8).
    destruct (k <? 8) eqn:E8.
    - rewrite Z.mod_pow2_bits_low by lia. rewrite Z.shiftl_spec by lia.
      destruct (7 - end_ <=? k) eqn:E1.
      + destruct (k <=? 7 - start) eqn:E2.
        * rewrite Z.ones_spec_low by lia. reflexivity.
        * rewrite Z.ones_spec_high by lia. reflexivity.
      + rewrite Z.testbit_neg_r by lia. reflexivity.
    - rewrite Z.mod_pow2_bits_high by lia. reflexivity. }
  assert (Hmb : 0 <= m < 256) by (unfold m; apply Z.mod_pos_bound; lia).
  assert (Hnm : forall k, 0 <= k < 8 -> Z.testbit (255 - m) k = negb (Z.testbit m k)).
  { intros k Hk. assert (F : forallz 0 256 (fun m => forallz 0 8 (fun k =>
      Bool.eqb (Z.testbit (255 - m) k) (negb (Z.testbit m k)))) = true) by (vm_compute; reflexivity).
    pose proof (forallz_spec _ _ _ F m Hmb) as F1. cbv beta in F1.
    pose proof (forallz_spec _ _ _ F1 k Hk) as F2. cbv beta in F2.
    apply eqb_prop. exact F2. }
  assert (Hr : forall k, 0 <= k -> Z.testbit
     (Z.lor (Z.land byte (255 - m)) (Z.land (Z.shiftl value (7 - end_) mod 256) m)) k =
     if (k <? 8) then (if Z.testbit m k then Z.testbit value (k - (7 - end_)) else Z.testbit byte k)
     else false).
  { intros k Hk. rewrite Z.lor_spec, !Z.land_spec.
    destruct (k <? 8) eqn:E8.
    - rewrite Hnm by lia. change 256 with (2 ^ 8). rewrite Z.mod_pow2_bits_low by lia.
      rewrite Z.shiftl_spec by lia.
      destruct (Z.testbit m k); simpl; rewrite ?andb_true_r, ?andb_false_r, ?orb_false_r; reflexivity.
    - change 256 with (2 ^ 8). rewrite Z.mod_pow2_bits_high by lia.
      rewrite (Z.bits_above_log2 byte); [reflexivity|lia|].
      destruct (Z.eq_dec byte 0) as [->|]; [simpl; lia|].
      assert (Z.log2 byte < 8) by (apply Z.log2_lt_pow2; lia). lia. }
  eexists. split; [reflexivity|].
  set (r := Z.lor _ _) in *.
  assert (0 <= r).
  { unfold r. apply Z.lor_nonneg. split; apply Z.land_nonneg; [left; lia | right; lia]. }
  split.
  - split; [assumption|].
    destruct (Z.eq_dec r 0) as [->|]; [lia|].
    change 256 with (2 ^ 8). apply Z.log2_lt_pow2; [lia|].
    destruct (Z_lt_le_dec (Z.log2 r) 8) as [|HH]; [assumption|].
    pose proof (Z.bit_log2 r ltac:(lia)) as HB.
    rewrite Hr in HB by lia. replace (Z.log2 r <? 8) with false in HB by lia. discriminate.
  - intros i Hi. rewrite Hr by lia. replace (7 - i <? 8) with true by lia.
    rewrite Hm by lia. replace (7 - i <? 8) with true by lia.
    replace (7 - end_ <=? 7 - i) with (i <=? end_) by lia.
    replace (7 - i <=? 7 - start) with (start <=? i) by lia.
    replace (7 - i - (7 - end_)) with (end_ - i) by lia.
    destruct (start <=? i), (i <=? end_); reflexivity.
Qed.

Lemma extract_insert : forall debug byte value start end_,
  0 <= start -> start <= end_ -> end_ <= 7 -> 0 <= byte < 256 -> 0 <= value < 256 ->
  exists r, insert_msb_bits debug byte value start end_ = Ok r /\ 0 <= r < 256 /\
    extract_msb_bits debug r start end_ = Ok (value mod 2 ^ (end_ - start + 1)).
Proof.
  intros debug byte value start end_ H1 H2 H3 Hb Hv.
  destruct (insert_ok_bits debug byte value start end_ H1 H2 H3 Hb Hv) as (r & E & Hr & B).
  exists r. split; [assumption|]. split; [assumption|].
  rewrite extract_value by assumption. f_equal.
  apply Z.bits_inj'. intros n Hn.
  destruct (Z_lt_le_dec n (end_ - start + 1)) as [L|G].
  - rewrite !Z.mod_pow2_bits_low by lia. rewrite <- Z.shiftr_div_pow2 by lia.
    rewrite Z.shiftr_spec by lia.
    replace (n + (7 - end_)) with (7 - (end_ - n)) by lia.
    rewrite B by lia. replace (start <=? end_ - n) with true by lia.
    replace (end_ - n <=? end_) with true by lia. simpl. f_equal. lia.
  - rewrite !Z.mod_pow2_bits_high by lia. reflexivity.
Qed.
