(** The decoders return the pictures of Spec/Pixels.v. *)
From Verif Require Import Base.Bytes Base.Res Model.Color565 Model.Decode Spec.Pixels Proofs.Color565Facts Proofs.Rgb565Facts.
From Coq Require Import ZifyBool ZifyNat.

Lemma widen5_e5 : forall r, 0 <= r < 32 -> e5 r = widen5 r.
Proof.
  assert (S : forallz 0 32 (fun r => e5 r =? widen5 r) = true) by (vm_compute; reflexivity).
  intros r H. pose proof (forallz_spec _ _ _ S r H) as F. cbv beta in F. lia.
Qed.
Lemma widen6_e6 : forall r, 0 <= r < 64 -> e6 r = widen6 r.
Proof.
  assert (S : forallz 0 64 (fun r => e6 r =? widen6 r) = true) by (vm_compute; reflexivity).
  intros r H. pose proof (forallz_spec _ _ _ S r H) as F. cbv beta in F. lia.
Qed.

Lemma rgb_channels : forall v, 0 <= v < 65536 -> rgb v = (red v, green v, blue v).
Proof.
  intros v H. unfold rgb. rewrite red_e5, green_e6, blue_e5 by exact H.
  rewrite widen5_e5, widen6_e6, widen5_e5 by lia. reflexivity.
Qed.

Lemma to_8888_rgb : forall v, 0 <= v < 65536 -> to_8888_lossy v = opaque (rgb v).
Proof. intros v H. rewrite rgb_channels by exact H. reflexivity. Qed.

Lemma fits_ok : forall m z, 0 <= z <= m -> fits m z = Ok z.
Proof. intros m z H. unfold fits. replace ((0 <=? z) && (z <=? m)) with true by lia. reflexivity. Qed.

Lemma weighted_ok : forall max w0 a w1 b d, 0 <= a < 256 -> 0 <= b < 256 -> 0 <= w0 -> 0 <= w1 -> w0 + w1 = d -> 0 < d -> d * 255 <= max ->
  weighted max w0 a w1 b d = Ok ((w0 * a + w1 * b) / d) /\ 0 <= (w0 * a + w1 * b) / d < 256.
Proof.
  intros max w0 a w1 b d A B W0 W1 D D0 M. unfold weighted.
  rewrite fits_ok by nia. cbn [bind]. rewrite fits_ok by nia. cbn [bind]. rewrite fits_ok by nia. cbn [bind].
  assert (E : 0 <= (w0 * a + w1 * b) / d < 256).
  { split; [apply Z.div_pos; nia|]. apply Z.div_lt_upper_bound; nia. }
  split; [|exact E]. rewrite Z.mod_small by exact E. reflexivity.
Qed.

Lemma mix_ok : forall w0 c0 w1 c1 d, 0 <= c0 < 65536 -> 0 <= c1 < 65536 -> 0 <= w0 -> 0 <= w1 -> w0 + w1 = d -> 0 < d -> d * 255 <= u32_max ->
  mix w0 c0 w1 c1 d = Ok (opaque (blend w0 w1 d (rgb c0) (rgb c1))).
Proof.
  intros w0 c0 w1 c1 d H0 H1 W0 W1 D D0 M. unfold mix.
  destruct (rgb_expand c0 H0) as [(R0 & G0 & B0) _]. destruct (rgb_expand c1 H1) as [(R1 & G1 & B1) _].
  rewrite (proj1 (weighted_ok _ _ _ _ _ _ R0 R1 W0 W1 D D0 M)). cbn [bind].
  rewrite (proj1 (weighted_ok _ _ _ _ _ _ G0 G1 W0 W1 D D0 M)). cbn [bind].
  rewrite (proj1 (weighted_ok _ _ _ _ _ _ B0 B1 W0 W1 D D0 M)). cbn [bind].
  rewrite !rgb_channels by assumption. reflexivity.
Qed.

(** ** The pixel loop *)
Lemma pixel_loop : forall {S} body (mk : list color8888 -> nat -> S) (f : nat -> color8888),
  (forall k result, (k < 16)%nat -> List.length result = 16%nat ->
     body (Z.of_nat k / 4, Z.of_nat k mod 4) (mk result k) = Ok (mk (splice result (Z.of_nat k) [f k]) (k + 1)%nat)) ->
  for_each positions body (mk (repeat blank 16) 0%nat) = Ok (mk (map f (seq 0 16)) 16%nat).
Proof.
  intros S body mk f H.
  assert (G : forall n k result, (k + n = 16)%nat -> List.length result = 16%nat ->
    for_each (map (fun k => (Z.of_nat k / 4, Z.of_nat k mod 4)) (seq k n)) body (mk result k) =
    Ok (mk (firstn k result ++ map f (seq k n)) 16%nat)).
  { induction n as [|n IH]; intros k result K L.
    - cbn [seq map for_each]. rewrite app_nil_r, firstn_all2 by lia. do 2 f_equal. lia.
    - cbn [seq map for_each]. rewrite H by lia. cbn [bind]. replace (k + 1)%nat with (Datatypes.S k) by lia.
      rewrite IH; [|lia|unfold splice; cbn [List.length]; rewrite !app_length, firstn_length, skipn_length; cbn [List.length]; lia].
      do 2 f_equal. unfold splice. rewrite Nat2Z.id. rewrite app_assoc, firstn_app, firstn_app.
      rewrite firstn_firstn, firstn_length. cbn [List.length].
      replace (Nat.min (Datatypes.S k) k) with k by lia. replace (Nat.min k (List.length result)) with k by lia.
      replace (Datatypes.S k - k)%nat with 1%nat by lia. rewrite app_length, firstn_length. cbn [List.length].
      replace (Datatypes.S k - (Nat.min k (List.length result) + 1))%nat with 0%nat by lia. cbn [firstn].
      rewrite app_nil_r, <- app_assoc. reflexivity. }
  change positions with (map (fun k => (Z.of_nat k / 4, Z.of_nat k mod 4)) (seq 0 16)).
  rewrite (G 16%nat 0%nat (repeat blank 16)) by reflexivity. reflexivity.
Qed.

Lemma set_pixel_ok : forall result k c, (k < 16)%nat -> List.length result = 16%nat ->
  set_pixel result (Z.of_nat k mod 4) (Z.of_nat k / 4) c = Ok (splice result (Z.of_nat k) [c]).
Proof.
  intros result k c K L. unfold set_pixel. replace (Z.of_nat k / 4 * 4 + Z.of_nat k mod 4) with (Z.of_nat k) by lia.
  replace ((0 <=? Z.of_nat k) && (Z.of_nat k <? zlen result)) with true by (unfold zlen; lia). reflexivity.
Qed.

Lemma bits_field : forall z w k, 0 <= z -> Z.land (Z.shiftr z (Z.of_nat w * Z.of_nat k)) (2 ^ Z.of_nat w - 1) = bits z w k.
Proof.
  intros z w k H. unfold bits. rewrite <- Z.sub_1_r || idtac.
  replace (2 ^ Z.of_nat w - 1) with (Z.ones (Z.of_nat w)) by (rewrite Z.ones_equiv; lia).
  rewrite Z.land_ones by lia. rewrite Z.shiftr_div_pow2 by lia. rewrite Nat2Z.inj_mul. reflexivity.
Qed.

Lemma bits_bound : forall z w k, 0 <= bits z w k < 2 ^ Z.of_nat w.
Proof. intros z w k. unfold bits. apply Z.mod_pos_bound. apply Z.pow_pos_nonneg; lia. Qed.

Lemma pick_ok : forall dict i, 0 <= i < zlen dict -> pick dict i = Ok (nth (Z.to_nat i) dict blank).
Proof. intros dict i H. unfold pick. replace ((0 <=? i) && (i <? zlen dict)) with true by lia. reflexivity. Qed.

Lemma rd_ok : forall src i, 0 <= i < zlen src -> rd src i = Ok (znth src i).
Proof. intros src i H. unfold rd. replace ((0 <=? i) && (i <? zlen src)) with true by lia. reflexivity. Qed.

(** ** BC1 *)
Lemma bc1_dict_ok : forall c0 c1, 0 <= c0 < 65536 -> 0 <= c1 < 65536 ->
  bc1_dict c0 c1 = Ok (if c1 <? c0 then map (fun i => opaque (four_colours c0 c1 i)) [0; 1; 2; 3]
                       else [opaque (rgb c0); opaque (rgb c1); opaque (blend 1 1 2 (rgb c0) (rgb c1)); blank]).
Proof.
  intros c0 c1 H0 H1. unfold bc1_dict, greater_than. rewrite !to_8888_rgb by assumption. destruct (c1 <? c0).
  - rewrite (mix_ok 2 c0 1 c1 3) by (unfold u32_max; lia). cbn [bind].
    rewrite (mix_ok 1 c0 2 c1 3) by (unfold u32_max; lia). reflexivity.
  - rewrite (mix_ok 1 c0 1 c1 2) by (unfold u32_max; lia). reflexivity.
Qed.

Lemma bc23_dict_ok : forall c0 c1, 0 <= c0 < 65536 -> 0 <= c1 < 65536 ->
  bc23_dict c0 c1 = Ok (map (fun i => opaque (four_colours c0 c1 i)) [0; 1; 2; 3]).
Proof.
  intros c0 c1 H0 H1. unfold bc23_dict. rewrite !to_8888_rgb by assumption.
  rewrite (mix_ok 2 c0 1 c1 3) by (unfold u32_max; lia). cbn [bind].
  rewrite (mix_ok 1 c0 2 c1 3) by (unfold u32_max; lia). reflexivity.
Qed.

Lemma le2 : forall a b, le [a; b] = u16le a b.
Proof. intros. unfold u16le. cbn [le]. lia. Qed.
Lemma le4 : forall a b c d, le [a; b; c; d] = u32le a b c d.
Proof. intros. unfold u32le. cbn [le]. lia. Qed.

Lemma four : forall k, 0 <= k < 4 -> k = 0 \/ k = 1 \/ k = 2 \/ k = 3.
Proof. intros. lia. Qed.

Lemma bc1_decode : forall b, 8 <= zlen b -> decode_bc1_block b = Ok (picture bc1_pixel b).
Proof.
  intros b H. unfold decode_bc1_block.
  rewrite (rd_ok b 0), (rd_ok b 1), (rd_ok b 2), (rd_ok b 3), (rd_ok b 4), (rd_ok b 5), (rd_ok b 6), (rd_ok b 7) by lia. cbn [bind].
  do 8 (destruct b as [|? b]; [exfalso; unfold zlen in H; cbn [List.length] in H; lia|]).
  change (znth _ 0) with b0. change (znth _ 1) with b1. change (znth _ 2) with b2. change (znth _ 3) with b3.
  change (znth _ 4) with b4. change (znth _ 5) with b5. change (znth _ 6) with b6. change (znth _ 7) with b7.
  pose proof (u16le_bound b0 b1) as C0. pose proof (u16le_bound b2 b3) as C1. pose proof (u32le_bound b4 b5 b6 b7) as IX.
  rewrite bc1_dict_ok by assumption. cbn [bind].
  set (dict := if u16le b2 b3 <? u16le b0 b1 then _ else _).
  erewrite (pixel_loop _ (fun r k => (r, Z.of_nat (2 * k))) (bc1_pixel (b0 :: b1 :: b2 :: b3 :: b4 :: b5 :: b6 :: b7 :: b))); [reflexivity|].
  intros k result K L. cbv beta iota.
  assert (E : Z.land (Z.shiftr (u32le b4 b5 b6 b7) (Z.of_nat (2 * k))) 3 = bits (u32le b4 b5 b6 b7) 2 k).
  { rewrite <- (bits_field _ 2 k) by lia. f_equal. f_equal. lia. }
  rewrite E. pose proof (bits_bound (u32le b4 b5 b6 b7) 2 k) as BB. change (2 ^ Z.of_nat 2) with 4 in BB.
  rewrite pick_ok by (unfold dict; destruct (_ <? _); exact BB). cbn [bind].
  rewrite set_pixel_ok by assumption. cbn [bind]. do 4 f_equal; [|lia].
  unfold bc1_pixel. cbn [firstn skipn]. rewrite !le2, le4.
  unfold dict. destruct (u16le b2 b3 <? u16le b0 b1); destruct (four _ BB) as [-> | [-> | [-> | ->]]]; reflexivity.
Qed.

(** ** Fields of a little-endian number *)
Lemma le_bound : forall l, 0 <= le l.
Proof. induction l as [|b l IH]; cbn [le]; [lia|]. pose proof (b2z_bound b). lia. Qed.

Lemma le_shift : forall j l, le l / 256 ^ Z.of_nat j = le (skipn j l).
Proof.
  induction j as [|j IH]; intros l.
  - cbn [skipn]. change (256 ^ Z.of_nat 0) with 1. apply Z.div_1_r.
  - destruct l as [|b l]; [rewrite skipn_nil; cbn [le]; apply Z.div_0_l; apply Z.pow_nonzero; lia|].
    cbn [skipn le]. rewrite <- IH. rewrite Nat2Z.inj_succ, Z.pow_succ_r by lia.
    rewrite <- Z.div_div by (try apply Z.pow_pos_nonneg; lia). f_equal. pose proof (b2z_bound b). lia.
Qed.

Lemma le_field : forall l w k j s, (w * k = 8 * j + s)%nat -> bits (le l) w k = le (skipn j l) / 2 ^ Z.of_nat s mod 2 ^ Z.of_nat w.
Proof.
  intros l w k j s E. unfold bits. rewrite E, <- le_shift. f_equal.
  rewrite Nat2Z.inj_add, Z.pow_add_r by lia. rewrite Nat2Z.inj_mul, Z.pow_mul_r by lia. change (2 ^ Z.of_nat 8) with 256.
  rewrite Z.div_div by (try apply Z.pow_pos_nonneg; try apply Z.pow_nonzero; lia). reflexivity.
Qed.

Lemma skipn_cons_nth : forall (l : list byte) j, (j < List.length l)%nat -> skipn j l = nth j l x00 :: skipn (S j) l.
Proof.
  induction l as [|a l IH]; intros j H; cbn [List.length] in H; [lia|]. destruct j as [|j]; [reflexivity|].
  cbn [skipn nth]. apply IH. lia.
Qed.

(** ** BC2 *)
Lemma bc2_alpha_field : forall l k, List.length l = 8%nat -> (k < 16)%nat ->
  Z.land (Z.shiftr (b2z (znth l (Z.shiftr (Z.of_nat k) 1))) (Z.land (Z.of_nat k) 1 * 4)) 15 = bits (le l) 4 k.
Proof.
  intros l k L K. rewrite (le_field l 4 k (k / 2) (4 * (k mod 2))) by lia.
  rewrite skipn_cons_nth by lia. cbn [le]. unfold znth.
  replace (Z.shiftr (Z.of_nat k) 1) with (Z.of_nat (k / 2)) by (rewrite Z.shiftr_div_pow2 by lia; change (2 ^ 1) with 2; lia).
  rewrite Nat2Z.id. rewrite (Z.land_ones (Z.of_nat k) 1 ltac:(lia) : Z.land (Z.of_nat k) 1 = _). change (2 ^ 1) with 2.
  rewrite (Z.land_ones _ 4 ltac:(lia) : Z.land _ 15 = _). change (2 ^ 4) with 16. change (2 ^ Z.of_nat 4) with 16.
  generalize (le (skipn (S (k / 2)) l)). intros z. pose proof (b2z_bound (nth (k / 2) l x00)) as B. revert B.
  generalize (b2z (nth (k / 2) l x00)). intros a B.
  assert (Q : (k mod 2 = 0 \/ k mod 2 = 1)%nat) by lia.
  destruct Q as [Q|Q]; rewrite Q; replace (Z.of_nat k mod 2) with (Z.of_nat (k mod 2)) by lia; rewrite Q.
  - change (Z.of_nat 0 * 4) with 0. change (2 ^ Z.of_nat (4 * 0)) with 1. rewrite Z.shiftr_0_r. lia.
  - change (Z.of_nat 1 * 4) with 4. change (2 ^ Z.of_nat (4 * 1)) with 16. rewrite Z.shiftr_div_pow2 by lia. change (2 ^ 4) with 16. lia.
Qed.

Ltac take16 b H := do 16 (destruct b as [|? b]; [exfalso; unfold zlen in H; cbn [List.length] in H; lia|]).

Lemma bc2_decode : forall b, 16 <= zlen b -> decode_bc2_block b = Ok (picture bc2_pixel b).
Proof.
  intros b H. unfold decode_bc2_block.
  rewrite (rd_ok b 8), (rd_ok b 9), (rd_ok b 10), (rd_ok b 11), (rd_ok b 12), (rd_ok b 13), (rd_ok b 14), (rd_ok b 15) by lia. cbn [bind].
  take16 b H.
  change (znth _ 8) with b8. change (znth _ 9) with b9. change (znth _ 10) with b10. change (znth _ 11) with b11.
  change (znth _ 12) with b12. change (znth _ 13) with b13. change (znth _ 14) with b14. change (znth _ 15) with b15.
  pose proof (u16le_bound b8 b9) as C0. pose proof (u16le_bound b10 b11) as C1. pose proof (u32le_bound b12 b13 b14 b15) as IX.
  rewrite bc23_dict_ok by assumption. cbn [bind].
  set (blk := b0 :: _). change (slice blk 0 8) with [b0; b1; b2; b3; b4; b5; b6; b7].
  erewrite (pixel_loop _ (fun r k => (r, Z.of_nat (2 * k), Z.of_nat k)) (bc2_pixel blk)); [reflexivity|].
  intros k result K L. cbv beta iota.
  assert (E : Z.land (Z.shiftr (u32le b12 b13 b14 b15) (Z.of_nat (2 * k))) 3 = bits (u32le b12 b13 b14 b15) 2 k).
  { rewrite <- (bits_field _ 2 k) by lia. f_equal. f_equal. lia. }
  rewrite E. pose proof (bits_bound (u32le b12 b13 b14 b15) 2 k) as BB. change (2 ^ Z.of_nat 2) with 4 in BB.
  rewrite pick_ok by exact BB. cbn [bind].
  rewrite bc2_alpha_field by (first [reflexivity|exact K]).
  pose proof (bits_bound (le [b0; b1; b2; b3; b4; b5; b6; b7]) 4 k) as AB. change (2 ^ Z.of_nat 4) with 16 in AB.
  replace ((Z.shiftr (Z.of_nat k) 1 <? 0) || (8 <=? Z.shiftr (Z.of_nat k) 1)) with false
    by (rewrite Z.shiftr_div_pow2 by lia; change (2 ^ 1) with 2; lia).
  rewrite fits_ok by (unfold u8_max; lia). cbn [bind]. rewrite set_pixel_ok by assumption. cbn [bind].
  unfold bc2_pixel, colour_of, blk. cbn [firstn skipn]. rewrite !le2, le4.
  rewrite (Z.mul_comm 17). replace (Z.of_nat (2 * (k + 1))) with (Z.of_nat (2 * k) + 2) by lia.
  replace (Z.of_nat (k + 1)) with (Z.of_nat k + 1) by lia.
  destruct (four _ BB) as [-> | [-> | [-> | ->]]]; cbn [Z.to_nat nth map four_colours];
    first [rewrite (rgb_channels _ C0) | idtac]; first [rewrite (rgb_channels _ C1) | idtac]; reflexivity.
Qed.

(** ** BC3 *)
Lemma alpha_byte_ok : forall l i, 0 <= i < zlen l -> alpha_index_byte l i = Ok (b2z (znth l i)).
Proof. intros l i H. unfold alpha_index_byte. replace ((0 <=? i) && (i <? zlen l)) with true by lia. reflexivity. Qed.

Lemma land_7 : forall a, Z.land a 7 = a mod 8.
Proof. intros. change 7 with (Z.ones 3). rewrite Z.land_ones by lia. reflexivity. Qed.
Lemma land_255 : forall a, Z.land a 255 = a mod 256.
Proof. intros. change 255 with (Z.ones 8). rewrite Z.land_ones by lia. reflexivity. Qed.

Lemma bc3_alpha_field : forall l k, List.length l = 6%nat -> (k < 16)%nat ->
  bc3_alpha_idx l (Z.of_nat (3 * k)) = Ok (bits (le l) 3 k).
Proof.
  intros l k L K. unfold bc3_alpha_idx. set (j := (3 * k / 8)%nat). set (s := (3 * k mod 8)%nat).
  rewrite (le_field l 3 k j s) by (unfold j, s; lia).
  replace (Z.of_nat (3 * k) / 8) with (Z.of_nat j) by (unfold j; lia).
  replace (Z.of_nat (3 * k) mod 8) with (Z.of_nat s) by (unfold s; lia).
  change (2 ^ Z.of_nat 3) with 8.
  rewrite (skipn_cons_nth l j) by (unfold j; lia). cbn [le].
  pose proof (b2z_bound (nth j l x00)) as B.
  destruct (Z.of_nat s <=? 5) eqn:Q.
  - rewrite alpha_byte_ok by (unfold zlen, j; lia). cbn [bind]. unfold znth. rewrite Nat2Z.id. f_equal.
    rewrite land_7, Z.shiftr_div_pow2 by lia. revert B. generalize (b2z (nth j l x00)). generalize (le (skipn (S j) l)). intros z a B.
    assert (S6 : (s = 0 \/ s = 1 \/ s = 2 \/ s = 3 \/ s = 4 \/ s = 5)%nat) by lia.
    destruct S6 as [->|[->|[->|[->|[->| ->]]]]];
      [change (2 ^ Z.of_nat 0) with 1|change (2 ^ Z.of_nat 1) with 2|change (2 ^ Z.of_nat 2) with 4|change (2 ^ Z.of_nat 3) with 8
      |change (2 ^ Z.of_nat 4) with 16|change (2 ^ Z.of_nat 5) with 32]; lia.
  - assert (J : (j + 1 < 6)%nat) by (unfold j, s in *; lia).
    rewrite alpha_byte_ok by (unfold zlen; lia). cbn [bind]. rewrite alpha_byte_ok by (unfold zlen; lia). cbn [bind]. unfold znth.
    replace (Z.to_nat (Z.of_nat j + 1)) with (S j) by lia. rewrite Nat2Z.id. f_equal.
    rewrite (skipn_cons_nth l (S j)) by lia. cbn [le]. pose proof (b2z_bound (nth (S j) l x00)) as B'.
    rewrite land_7, land_255, Z.shiftr_div_pow2, Z.shiftl_mul_pow2 by lia.
    revert B B'. generalize (b2z (nth j l x00)), (b2z (nth (S j) l x00)), (le (skipn (S (S j)) l)). intros a a' z B B'.
    assert (S2 : (s = 6 \/ s = 7)%nat) by (unfold s in *; lia).
    destruct S2 as [-> | ->].
    + change (2 ^ Z.of_nat 6) with 64. change (8 - Z.of_nat 6) with 2. change (2 ^ 2) with 4.
      rewrite Z.lor_comm. replace (a' * 4 mod 256) with (a' mod 64 * 2 ^ 2) by lia. rewrite lor_mul_add by lia. lia.
    + change (2 ^ Z.of_nat 7) with 128. change (8 - Z.of_nat 7) with 1. change (2 ^ 1) with 2.
      rewrite Z.lor_comm. replace (a' * 2 mod 256) with (a' mod 128 * 2 ^ 1) by lia. rewrite lor_mul_add by lia. lia.
Qed.

Lemma eight : forall k, 0 <= k < 8 -> k = 0 \/ k = 1 \/ k = 2 \/ k = 3 \/ k = 4 \/ k = 5 \/ k = 6 \/ k = 7.
Proof. intros. lia. Qed.

Lemma bc3_alphas_ok : forall a0 a1, 0 <= a0 < 256 -> 0 <= a1 < 256 ->
  bc3_alphas a0 a1 = Ok (map (bc3_alpha a0 a1) [0; 1; 2; 3; 4; 5; 6; 7]).
Proof.
  intros a0 a1 H0 H1. unfold bc3_alphas.
  assert (W : forall w0 w1 d, 0 <= w0 -> 0 <= w1 -> w0 + w1 = d -> 0 < d <= 7 -> weighted u16_max w0 a0 w1 a1 d = Ok ((w0 * a0 + w1 * a1) / d)).
  { intros w0 w1 d P Q R D. apply weighted_ok; try assumption; unfold u16_max; lia. }
  unfold bc3_alpha. cbn [map]. destruct (a1 <? a0).
  - rewrite (W 6 1 7), (W 5 2 7), (W 4 3 7), (W 3 4 7), (W 2 5 7), (W 1 6 7) by lia. reflexivity.
  - rewrite (W 4 1 5), (W 3 2 5), (W 2 3 5), (W 1 4 5) by lia. reflexivity.
Qed.

Lemma le1 : forall a, le [a] = b2z a.
Proof. intros. cbn [le]. lia. Qed.

Lemma bc3_decode : forall b, 16 <= zlen b -> decode_bc3_block b = Ok (picture bc3_pixel b).
Proof.
  intros b H. unfold decode_bc3_block.
  rewrite (rd_ok b 8), (rd_ok b 9), (rd_ok b 10), (rd_ok b 11), (rd_ok b 12), (rd_ok b 13), (rd_ok b 14), (rd_ok b 15) by lia. cbn [bind].
  rewrite (rd_ok b 0), (rd_ok b 1), (rd_ok b 2), (rd_ok b 3), (rd_ok b 4), (rd_ok b 5), (rd_ok b 6), (rd_ok b 7) by lia.
  take16 b H. 
  change (znth _ 8) with b8. change (znth _ 9) with b9. change (znth _ 10) with b10. change (znth _ 11) with b11.
  change (znth _ 12) with b12. change (znth _ 13) with b13. change (znth _ 14) with b14. change (znth _ 15) with b15.
  change (znth _ 0) with b0. change (znth _ 1) with b1. change (znth _ 2) with b2. change (znth _ 3) with b3.
  change (znth _ 4) with b4. change (znth _ 5) with b5. change (znth _ 6) with b6. change (znth _ 7) with b7.
  pose proof (u16le_bound b8 b9) as C0. pose proof (u16le_bound b10 b11) as C1. pose proof (u32le_bound b12 b13 b14 b15) as IX.
  rewrite bc23_dict_ok by assumption. cbn [bind].
  rewrite bc3_alphas_ok by apply b2z_bound. cbn [bind].
  set (blk := b0 :: _).
  erewrite (pixel_loop _ (fun r k => (r, Z.of_nat (2 * k), Z.of_nat (3 * k))) (bc3_pixel blk)); [reflexivity|].
  intros k result K L. cbv beta iota.
  assert (E : Z.land (Z.shiftr (u32le b12 b13 b14 b15) (Z.of_nat (2 * k))) 3 = bits (u32le b12 b13 b14 b15) 2 k).
  { rewrite <- (bits_field _ 2 k) by lia. f_equal. f_equal. lia. }
  rewrite E. pose proof (bits_bound (u32le b12 b13 b14 b15) 2 k) as BB. change (2 ^ Z.of_nat 2) with 4 in BB.
  rewrite pick_ok by exact BB. cbn [bind].
  rewrite bc3_alpha_field by (first [reflexivity|exact K]). cbn [bind].
  pose proof (bits_bound (le [b2; b3; b4; b5; b6; b7]) 3 k) as AB. change (2 ^ Z.of_nat 3) with 8 in AB.
  change (zlen (map _ _)) with 8.
  replace ((bits (le [b2; b3; b4; b5; b6; b7]) 3 k <? 0) || (8 <=? bits (le [b2; b3; b4; b5; b6; b7]) 3 k)) with false by lia.
  rewrite set_pixel_ok by assumption. cbn [bind].
  unfold bc3_pixel, colour_of, blk. cbn [firstn skipn]. rewrite !le2, le4, !le1.
  replace (nth (Z.to_nat (bits (le [b2; b3; b4; b5; b6; b7]) 3 k)) (map (bc3_alpha (b2z b0) (b2z b1)) [0; 1; 2; 3; 4; 5; 6; 7]) 0)
    with (bc3_alpha (b2z b0) (b2z b1) (bits (le [b2; b3; b4; b5; b6; b7]) 3 k))
    by (destruct (eight _ AB) as [-> | [-> | [-> | [-> | [-> | [-> | [-> | ->]]]]]]]; reflexivity).
  replace (Z.of_nat (2 * (k + 1))) with (Z.of_nat (2 * k) + 2) by lia.
  replace (Z.of_nat (3 * (k + 1))) with (Z.of_nat (3 * k) + 3) by lia.
  destruct (four _ BB) as [-> | [-> | [-> | ->]]]; cbn [Z.to_nat nth map four_colours];
    first [rewrite (rgb_channels _ C0) | idtac]; first [rewrite (rgb_channels _ C1) | idtac]; reflexivity.
Qed.

(** ** The slice functions *)
Definition DECODES (f : list byte -> res (option (list color8888))) (n : Z) (pixel : list byte -> nat -> color8888) : Prop :=
  forall b, f b = Ok (if zlen b <? n then None else Some (picture pixel b)).

Lemma bc1_slice : DECODES decode_bc1_block_from_slice 8 bc1_pixel.
Proof. intros b. unfold decode_bc1_block_from_slice. destruct (zlen b <? 8) eqn:E; [reflexivity|]. rewrite bc1_decode by lia. reflexivity. Qed.
Lemma bc2_slice : DECODES decode_bc2_block_from_slice 16 bc2_pixel.
Proof. intros b. unfold decode_bc2_block_from_slice. destruct (zlen b <? 16) eqn:E; [reflexivity|]. rewrite bc2_decode by lia. reflexivity. Qed.
Lemma bc3_slice : DECODES decode_bc3_block_from_slice 16 bc3_pixel.
Proof. intros b. unfold decode_bc3_block_from_slice. destruct (zlen b <? 16) eqn:E; [reflexivity|]. rewrite bc3_decode by lia. reflexivity. Qed.

Lemma picture_ext : forall (f g : nat -> color8888), (forall i, f i = g i) -> map f (seq 0 16) = map g (seq 0 16).
Proof. intros f g H. apply map_ext. exact H. Qed.

Lemma firstn_skipn_app : forall {A} (a t : list A) i n, (i + n <= List.length a)%nat -> firstn n (skipn i (a ++ t)) = firstn n (skipn i a).
Proof.
  intros A a t i n H. rewrite skipn_app. rewrite firstn_app. rewrite skipn_length.
  replace (n - (List.length a - i))%nat with 0%nat by lia. rewrite firstn_O, app_nil_r. reflexivity.
Qed.
Lemma firstn_app_short : forall {A} (a t : list A) n, (n <= List.length a)%nat -> firstn n (a ++ t) = firstn n a.
Proof. intros A a t n H. rewrite firstn_app. replace (n - List.length a)%nat with 0%nat by lia. rewrite firstn_O, app_nil_r. reflexivity. Qed.

Lemma bc1_tail : forall b t, zlen b = 8 -> picture bc1_pixel (b ++ t) = picture bc1_pixel b.
Proof.
  intros b t H. unfold zlen in H. apply picture_ext. intros i. unfold bc1_pixel.
  rewrite (firstn_app_short b t 2), (firstn_skipn_app b t 2 2), (firstn_skipn_app b t 4 4) by lia. reflexivity.
Qed.
Lemma bc2_tail : forall b t, zlen b = 16 -> picture bc2_pixel (b ++ t) = picture bc2_pixel b.
Proof.
  intros b t H. unfold zlen in H. apply picture_ext. intros i. unfold bc2_pixel, colour_of.
  rewrite (firstn_app_short b t 8), (firstn_skipn_app b t 8 2), (firstn_skipn_app b t 10 2), (firstn_skipn_app b t 12 4) by lia. reflexivity.
Qed.
Lemma bc3_tail : forall b t, zlen b = 16 -> picture bc3_pixel (b ++ t) = picture bc3_pixel b.
Proof.
  intros b t H. unfold zlen in H. apply picture_ext. intros i. unfold bc3_pixel, colour_of.
  rewrite (firstn_app_short b t 1), (firstn_skipn_app b t 1 1), (firstn_skipn_app b t 2 6), (firstn_skipn_app b t 8 2), (firstn_skipn_app b t 10 2), (firstn_skipn_app b t 12 4) by lia.
  reflexivity.
Qed.

Lemma lC36 : forall b : list byte,
  decode_bc1_block_from_slice b = Ok (if zlen b <? 8 then None else Some (picture bc1_pixel b)) /\
  decode_bc2_block_from_slice b = Ok (if zlen b <? 16 then None else Some (picture bc2_pixel b)) /\
  decode_bc3_block_from_slice b = Ok (if zlen b <? 16 then None else Some (picture bc3_pixel b)) /\
  (8 <= zlen b -> decode_bc1_block b = Ok (picture bc1_pixel b)) /\
  (16 <= zlen b -> decode_bc2_block b = Ok (picture bc2_pixel b)) /\
  (16 <= zlen b -> decode_bc3_block b = Ok (picture bc3_pixel b)).
Proof.
  intros b. split; [apply bc1_slice|]. split; [apply bc2_slice|]. split; [apply bc3_slice|].
  split; [apply bc1_decode|]. split; [apply bc2_decode|apply bc3_decode].
Qed.

Lemma lC36_first_block_only : forall b t : list byte,
  (zlen b = 8 -> decode_bc1_block_from_slice (b ++ t) = decode_bc1_block_from_slice b) /\
  (zlen b = 16 -> decode_bc2_block_from_slice (b ++ t) = decode_bc2_block_from_slice b) /\
  (zlen b = 16 -> decode_bc3_block_from_slice (b ++ t) = decode_bc3_block_from_slice b).
Proof.
  intros b t. pose proof (zlen_nonneg _ t) as T.
  split; [|split]; intros H.
  - rewrite !bc1_slice, zlen_app. replace (zlen b + zlen t <? 8) with false by lia. replace (zlen b <? 8) with false by lia. rewrite bc1_tail by exact H. reflexivity.
  - rewrite !bc2_slice, zlen_app. replace (zlen b + zlen t <? 16) with false by lia. replace (zlen b <? 16) with false by lia. rewrite bc2_tail by exact H. reflexivity.
  - rewrite !bc3_slice, zlen_app. replace (zlen b + zlen t <? 16) with false by lia. replace (zlen b <? 16) with false by lia. rewrite bc3_tail by exact H. reflexivity.
Qed.

