(** YCoCg-R is a bijection of the 16-bit colours, and each SIMD lane computes
    it. Proved by arithmetic modulo 32 rather than by enumeration, so that the
    stand-alone checker (which has no virtual machine) accepts it quickly. *)
From Verif Require Import Base.Bytes Model.Color565 Model.Lanes Model.LanesGen Model.Ycc.

(** * Bit operations as arithmetic *)

Lemma land_31 : forall a, Z.land a 31 = a mod 32.
Proof. intros. change 31 with (Z.ones 5). rewrite Z.land_ones by lia. reflexivity. Qed.
Lemma land_15 : forall a, Z.land a 15 = a mod 16.
Proof. intros. change 15 with (Z.ones 4). rewrite Z.land_ones by lia. reflexivity. Qed.
Lemma land_1 : forall a, Z.land a 1 = a mod 2.
Proof. intros. change 1 with (Z.ones 1). rewrite Z.land_ones by lia. reflexivity. Qed.
Lemma land_65535 : forall a, Z.land a 65535 = a mod 65536.
Proof. intros. change 65535 with (Z.ones 16). rewrite Z.land_ones by lia. reflexivity. Qed.

(** A mask of [n] bits starting at bit [k]. *)
Lemma land_field : forall a n k, 0 <= n -> 0 <= k ->
  Z.land a (Z.ones n * 2 ^ k) = (a / 2 ^ k) mod 2 ^ n * 2 ^ k.
Proof.
  intros a n k Hn Hk. rewrite <- (Z.shiftl_mul_pow2 (Z.ones n)) by lia.
  rewrite <- (Z.shiftl_mul_pow2 (_ mod _)) by lia.
  rewrite <- Z.shiftr_div_pow2 by lia. rewrite <- Z.land_ones by lia.
  apply Z.bits_inj'. intros i Hi. rewrite Z.land_spec.
  destruct (Z_lt_le_dec i k).
  - rewrite !Z.shiftl_spec_low by lia. apply andb_false_r.
  - rewrite !Z.shiftl_spec by lia. rewrite Z.land_spec, Z.shiftr_spec by lia.
    replace (i - k + k) with i by lia. reflexivity.
Qed.

Lemma land_32 : forall a, Z.land a 32 = (a / 32) mod 2 * 32.
Proof. intros. exact (land_field a 1 5 ltac:(lia) ltac:(lia)). Qed.
Lemma land_1984 : forall a, Z.land a 1984 = (a / 64) mod 32 * 64.
Proof. intros. exact (land_field a 5 6 ltac:(lia) ltac:(lia)). Qed.
Lemma land_32768 : forall a, Z.land a 32768 = (a / 32768) mod 2 * 32768.
Proof. intros. exact (land_field a 1 15 ltac:(lia) ltac:(lia)). Qed.
Lemma land_31744 : forall a, Z.land a 31744 = (a / 1024) mod 32 * 1024.
Proof. intros. exact (land_field a 5 10 ltac:(lia) ltac:(lia)). Qed.

Lemma shiftr_div : forall a k, 0 <= k -> Z.shiftr a k = a / 2 ^ k.
Proof. intros. apply Z.shiftr_div_pow2. assumption. Qed.

Ltac arith :=
  unfold w_add, w_sub, w_slli, w_srli, w_and, w16, shl16, u16 in *;
  rewrite ?land_31, ?land_15, ?land_1, ?land_32, ?land_1984, ?land_32768, ?land_31744,
          ?land_65535 in *;
  rewrite ?Z.shiftr_div_pow2, ?Z.shiftl_mul_pow2 in * by lia;
  change (2 ^ 1) with 2 in *; change (2 ^ 2) with 4 in *; change (2 ^ 5) with 32 in *;
  change (2 ^ 6) with 64 in *; change (2 ^ 7) with 128 in *; change (2 ^ 10) with 1024 in *;
  change (2 ^ 11) with 2048 in *; change (2 ^ 15) with 32768 in *.

(** A disjoint [or] is a sum. *)
Lemma lor_mul_add : forall a b k, 0 <= k -> 0 <= b < 2 ^ k -> Z.lor (a * 2 ^ k) b = a * 2 ^ k + b.
Proof.
  intros a b k Hk Hb.
  assert (L : Z.land (a * 2 ^ k) b = 0).
  { apply Z.bits_inj'. intros n Hn. rewrite Z.land_spec, Z.bits_0.
    destruct (Z_lt_le_dec n k).
    - rewrite Z.mul_pow2_bits_low by lia. reflexivity.
    - rewrite <- (Z.mod_small b (2 ^ k)) by lia. rewrite Z.mod_pow2_bits_high by lia.
      apply andb_false_r. }
  rewrite Z.add_nocarry_lxor by assumption. rewrite Z.lxor_lor by assumption. reflexivity.
Qed.

Lemma pack1 : forall a b c d, 0 <= a < 32 -> 0 <= b < 32 -> 0 <= c < 2 -> 0 <= d < 32 ->
  Z.lor (Z.lor (Z.lor (a * 2048) (b * 64)) (c * 32)) d = a * 2048 + b * 64 + c * 32 + d.
Proof.
  intros a b c d Ha Hb Hc Hd. change 2048 with (2 ^ 11). rewrite (lor_mul_add a) by lia.
  replace (a * 2 ^ 11 + b * 64) with ((a * 32 + b) * 2 ^ 6) by lia.
  rewrite lor_mul_add by lia.
  replace ((a * 32 + b) * 2 ^ 6 + c * 32) with ((a * 64 + b * 2 + c) * 2 ^ 5) by lia.
  rewrite lor_mul_add by lia. lia.
Qed.

Lemma pack2 : forall a b c d, 0 <= a < 2 -> 0 <= b < 32 -> 0 <= c < 32 -> 0 <= d < 32 ->
  Z.lor (Z.lor (Z.lor (a * 32768) (b * 1024)) (c * 32)) d = a * 32768 + b * 1024 + c * 32 + d.
Proof.
  intros a b c d Ha Hb Hc Hd. change 32768 with (2 ^ 15). rewrite (lor_mul_add a) by lia.
  replace (a * 2 ^ 15 + b * 1024) with ((a * 32 + b) * 2 ^ 10) by lia.
  rewrite lor_mul_add by lia.
  replace ((a * 32 + b) * 2 ^ 10 + c * 32) with ((a * 1024 + b * 32 + c) * 2 ^ 5) by lia.
  rewrite lor_mul_add by lia. lia.
Qed.

Lemma pack3 : forall a b c d, 0 <= a < 32 -> 0 <= b < 32 -> 0 <= c < 32 -> 0 <= d < 2 ->
  Z.lor (Z.lor (Z.lor (a * 2048) (b * 64)) (c * 2)) d = a * 2048 + b * 64 + c * 2 + d.
Proof.
  intros a b c d Ha Hb Hc Hd. change 2048 with (2 ^ 11). rewrite (lor_mul_add a) by lia.
  replace (a * 2 ^ 11 + b * 64) with ((a * 32 + b) * 2 ^ 6) by lia.
  rewrite lor_mul_add by lia.
  replace ((a * 32 + b) * 2 ^ 6 + c * 2) with ((a * 1024 + b * 32 + c) * 2 ^ 1) by lia.
  rewrite lor_mul_add by lia. lia.
Qed.

(** * Field-level description of the scalar functions *)

Definition f_co (r b : Z) : Z := (r - b) mod 32.
Definition f_t (r b : Z) : Z := (b + f_co r b / 2) mod 32.
Definition f_cg (r g b : Z) : Z := (g - f_t r b) mod 32.
Definition f_y (r g b : Z) : Z := (f_t r b + f_cg r g b / 2) mod 32.

Definition i_t (y cg : Z) : Z := (y - cg / 2) mod 32.
Definition i_g (y cg : Z) : Z := (cg + i_t y cg) mod 32.
Definition i_b (y co cg : Z) : Z := (i_t y cg - co / 2) mod 32.
Definition i_r (y co cg : Z) : Z := (i_b y co cg + co) mod 32.

Lemma f_bounds : forall r g b,
  0 <= f_co r b < 32 /\ 0 <= f_t r b < 32 /\ 0 <= f_cg r g b < 32 /\ 0 <= f_y r g b < 32.
Proof. intros. unfold f_co, f_t, f_cg, f_y. repeat split; apply Z.mod_pos_bound; lia. Qed.
Lemma i_bounds : forall y co cg,
  0 <= i_t y cg < 32 /\ 0 <= i_g y cg < 32 /\ 0 <= i_b y co cg < 32 /\ 0 <= i_r y co cg < 32.
Proof. intros. unfold i_t, i_g, i_b, i_r. repeat split; apply Z.mod_pos_bound; lia. Qed.

Lemma fi_inverse : forall r g b, 0 <= r < 32 -> 0 <= g < 32 -> 0 <= b < 32 ->
  i_r (f_y r g b) (f_co r b) (f_cg r g b) = r /\
  i_g (f_y r g b) (f_cg r g b) = g /\ i_b (f_y r g b) (f_co r b) (f_cg r g b) = b.
Proof.
  intros r g b Hr Hg Hb.
  assert (Et : i_t (f_y r g b) (f_cg r g b) = f_t r b).
  { unfold i_t, f_y. pose proof (f_bounds r g b).
    set (h := f_cg r g b / 2). set (t := f_t r b) in *. lia. }
  assert (Eb : i_b (f_y r g b) (f_co r b) (f_cg r g b) = b).
  { unfold i_b. rewrite Et. unfold f_t. set (h := f_co r b / 2). lia. }
  split; [|split].
  - unfold i_r. rewrite Eb. unfold f_co. lia.
  - unfold i_g. rewrite Et. unfold f_cg. set (t := f_t r b). lia.
  - exact Eb.
Qed.

Lemma if_inverse : forall y co cg, 0 <= y < 32 -> 0 <= co < 32 -> 0 <= cg < 32 ->
  f_y (i_r y co cg) (i_g y cg) (i_b y co cg) = y /\
  f_co (i_r y co cg) (i_b y co cg) = co /\
  f_cg (i_r y co cg) (i_g y cg) (i_b y co cg) = cg.
Proof.
  intros y co cg Hy Ho Hg.
  assert (Eo : f_co (i_r y co cg) (i_b y co cg) = co).
  { unfold f_co, i_r. set (b := i_b y co cg). lia. }
  assert (Et : f_t (i_r y co cg) (i_b y co cg) = i_t y cg).
  { unfold f_t. rewrite Eo. unfold i_b. pose proof (i_bounds y co cg).
    set (h := co / 2). set (t := i_t y cg) in *. lia. }
  assert (Eg : f_cg (i_r y co cg) (i_g y cg) (i_b y co cg) = cg).
  { unfold f_cg. rewrite Et. unfold i_g. set (t := i_t y cg). lia. }
  split; [|split]; try assumption.
  unfold f_y. rewrite Et, Eg. unfold i_t. set (h := cg / 2). lia.
Qed.

(** The four fields of a colour: 5-bit red, 5 high bits of green, low bit of
    green, 5-bit blue. *)
Definition pk (r g l b : Z) : Z := r * 2048 + g * 64 + l * 32 + b.

Lemma pk_of : forall x, 0 <= x < 65536 ->
  exists r g l b, x = pk r g l b /\ 0 <= r < 32 /\ 0 <= g < 32 /\ 0 <= l < 2 /\ 0 <= b < 32.
Proof.
  intros x Hx. exists (x / 2048), (x / 64 mod 32), (x / 32 mod 2), (x mod 32). unfold pk. lia.
Qed.

Lemma fwd_components_fields : forall r g l b,
  0 <= r < 32 -> 0 <= g < 32 -> 0 <= l < 2 -> 0 <= b < 32 ->
  fwd_components (pk r g l b) = (f_y r g b, f_co r b, f_cg r g b, l).
Proof.
  intros r g l b Hr Hg Hl Hb. unfold fwd_components. arith.
  replace (pk r g l b / 2048 mod 32) with r by (unfold pk; lia).
  replace (pk r g l b / 64 mod 32) with g by (unfold pk; lia).
  replace (pk r g l b / 32 mod 2) with l by (unfold pk; lia).
  replace (pk r g l b mod 32) with b by (unfold pk; lia).
  reflexivity.
Qed.

Lemma shl16_small : forall a k, 0 <= k -> 0 <= a -> a * 2 ^ k < 65536 -> shl16 a k = a * 2 ^ k.
Proof.
  intros a k Hk Ha H. unfold shl16, u16. rewrite land_65535, Z.shiftl_mul_pow2 by lia.
  apply Z.mod_small. split; [|assumption].
  apply Z.mul_nonneg_nonneg; [assumption|]. apply Z.pow_nonneg. lia.
Qed.

Lemma decorrelate_fields : forall r g l b,
  0 <= r < 32 -> 0 <= g < 32 -> 0 <= l < 2 -> 0 <= b < 32 ->
  decorrelate_var1 (pk r g l b) = f_y r g b * 2048 + f_co r b * 64 + l * 32 + f_cg r g b /\
  decorrelate_var2 (pk r g l b) = l * 32768 + f_y r g b * 1024 + f_co r b * 32 + f_cg r g b /\
  decorrelate_var3 (pk r g l b) = f_y r g b * 2048 + f_co r b * 64 + f_cg r g b * 2 + l.
Proof.
  intros r g l b Hr Hg Hl Hb.
  unfold decorrelate_var1, decorrelate_var2, decorrelate_var3.
  rewrite fwd_components_fields by assumption.
  pose proof (f_bounds r g b) as (B1 & B2 & B3 & B4).
  rewrite !shl16_small by lia.
  split; [|split].
  - apply pack1; assumption.
  - apply pack2; assumption.
  - apply pack3; assumption.
Qed.

Lemma inv_pack_fields : forall y co cg l,
  0 <= y < 32 -> 0 <= co < 32 -> 0 <= cg < 32 -> 0 <= l < 2 ->
  inv_pack y co cg l = pk (i_r y co cg) (i_g y cg) l (i_b y co cg).
Proof.
  intros y co cg l H1 H2 H3 H4. unfold inv_pack.
  pose proof (i_bounds y co cg) as (B1 & B2 & B3 & B4).
  rewrite !land_31. rewrite !Z.shiftr_div_pow2 by lia. change (2 ^ 1) with 2.
  fold (i_t y cg). fold (i_g y cg). fold (i_b y co cg). fold (i_r y co cg).
  rewrite !shl16_small by lia. apply pack1; assumption.
Qed.

Lemma recorrelate_fields : forall y co cg l,
  0 <= y < 32 -> 0 <= co < 32 -> 0 <= cg < 32 -> 0 <= l < 2 ->
  recorrelate_var1 (y * 2048 + co * 64 + l * 32 + cg)
    = pk (i_r y co cg) (i_g y cg) l (i_b y co cg) /\
  recorrelate_var2 (l * 32768 + y * 1024 + co * 32 + cg)
    = pk (i_r y co cg) (i_g y cg) l (i_b y co cg) /\
  recorrelate_var3 (y * 2048 + co * 64 + cg * 2 + l)
    = pk (i_r y co cg) (i_g y cg) l (i_b y co cg).
Proof.
  intros y co cg l H1 H2 H3 H4.
  unfold recorrelate_var1, recorrelate_var2, recorrelate_var3.
  rewrite !land_31, !land_1. rewrite !Z.shiftr_div_pow2 by lia.
  split; [|split]; rewrite <- (inv_pack_fields y co cg l) by assumption; f_equal; lia.
Qed.

Definition fields1 (x : Z) := (x / 2048, x / 64 mod 32, x mod 32, x / 32 mod 2).
Lemma unpk1 : forall x, 0 <= x < 65536 -> exists y co cg l,
  x = y * 2048 + co * 64 + l * 32 + cg /\ 0 <= y < 32 /\ 0 <= co < 32 /\ 0 <= cg < 32 /\ 0 <= l < 2.
Proof. intros x H. exists (x / 2048), (x / 64 mod 32), (x mod 32), (x / 32 mod 2). lia. Qed.
Lemma unpk2 : forall x, 0 <= x < 65536 -> exists y co cg l,
  x = l * 32768 + y * 1024 + co * 32 + cg /\ 0 <= y < 32 /\ 0 <= co < 32 /\ 0 <= cg < 32 /\ 0 <= l < 2.
Proof. intros x H. exists (x / 1024 mod 32), (x / 32 mod 32), (x mod 32), (x / 32768). lia. Qed.
Lemma unpk3 : forall x, 0 <= x < 65536 -> exists y co cg l,
  x = y * 2048 + co * 64 + cg * 2 + l /\ 0 <= y < 32 /\ 0 <= co < 32 /\ 0 <= cg < 32 /\ 0 <= l < 2.
Proof. intros x H. exists (x / 2048), (x / 64 mod 32), (x / 2 mod 32), (x mod 2). lia. Qed.

Lemma decorrelate_bound : forall v x, 0 <= x < 65536 -> 0 <= decorrelate v x < 65536.
Proof.
  intros v x H. destruct (pk_of x H) as (r & g & l & b & -> & Hr & Hg & Hl & Hb).
  destruct (decorrelate_fields r g l b Hr Hg Hl Hb) as (E1 & E2 & E3).
  pose proof (f_bounds r g b).
  destruct v; simpl; [assumption | rewrite E1 | rewrite E2 | rewrite E3]; lia.
Qed.

Lemma recorrelate_bound : forall v x, 0 <= x < 65536 -> 0 <= recorrelate v x < 65536.
Proof.
  intros v x H. destruct v; simpl; [assumption | | |].
  - destruct (unpk1 x H) as (y & co & cg & l & -> & H1 & H2 & H3 & H4).
    destruct (recorrelate_fields y co cg l H1 H2 H3 H4) as (E & _ & _). rewrite E.
    pose proof (i_bounds y co cg). unfold pk. lia.
  - destruct (unpk2 x H) as (y & co & cg & l & -> & H1 & H2 & H3 & H4).
    destruct (recorrelate_fields y co cg l H1 H2 H3 H4) as (_ & E & _). rewrite E.
    pose proof (i_bounds y co cg). unfold pk. lia.
  - destruct (unpk3 x H) as (y & co & cg & l & -> & H1 & H2 & H3 & H4).
    destruct (recorrelate_fields y co cg l H1 H2 H3 H4) as (_ & _ & E). rewrite E.
    pose proof (i_bounds y co cg). unfold pk. lia.
Qed.

Lemma recorrelate_decorrelate : forall v x, 0 <= x < 65536 -> recorrelate v (decorrelate v x) = x.
Proof.
  intros v x H. destruct (pk_of x H) as (r & g & l & b & -> & Hr & Hg & Hl & Hb).
  destruct (decorrelate_fields r g l b Hr Hg Hl Hb) as (E1 & E2 & E3).
  pose proof (f_bounds r g b) as (B1 & B2 & B3 & B4).
  destruct (recorrelate_fields (f_y r g b) (f_co r b) (f_cg r g b) l B4 B1 B3 Hl) as (R1 & R2 & R3).
  destruct (fi_inverse r g b Hr Hg Hb) as (I1 & I2 & I3). rewrite I1, I2, I3 in *.
  destruct v; simpl; [reflexivity | rewrite E1 | rewrite E2 | rewrite E3]; assumption.
Qed.

Lemma decorrelate_recorrelate : forall v x, 0 <= x < 65536 -> decorrelate v (recorrelate v x) = x.
Proof.
  intros v x H.
  assert (D : forall y co cg l, 0 <= y < 32 -> 0 <= co < 32 -> 0 <= cg < 32 -> 0 <= l < 2 ->
    let p := pk (i_r y co cg) (i_g y cg) l (i_b y co cg) in
    decorrelate_var1 p = y * 2048 + co * 64 + l * 32 + cg /\
    decorrelate_var2 p = l * 32768 + y * 1024 + co * 32 + cg /\
    decorrelate_var3 p = y * 2048 + co * 64 + cg * 2 + l).
  { intros y co cg l H1 H2 H3 H4 p.
    pose proof (i_bounds y co cg) as (B1 & B2 & B3 & B4).
    destruct (decorrelate_fields _ _ l _ B4 B2 H4 B3) as (E1 & E2 & E3).
    destruct (if_inverse y co cg H1 H2 H3) as (I1 & I2 & I3).
    rewrite I1, I2, I3 in *. tauto. }
  destruct v; simpl; [reflexivity | | |].
  - destruct (unpk1 x H) as (y & co & cg & l & -> & H1 & H2 & H3 & H4).
    destruct (recorrelate_fields y co cg l H1 H2 H3 H4) as (E & _ & _). rewrite E.
    apply (D y co cg l H1 H2 H3 H4).
  - destruct (unpk2 x H) as (y & co & cg & l & -> & H1 & H2 & H3 & H4).
    destruct (recorrelate_fields y co cg l H1 H2 H3 H4) as (_ & E & _). rewrite E.
    apply (D y co cg l H1 H2 H3 H4).
  - destruct (unpk3 x H) as (y & co & cg & l & -> & H1 & H2 & H3 & H4).
    destruct (recorrelate_fields y co cg l H1 H2 H3 H4) as (_ & _ & E). rewrite E.
    apply (D y co cg l H1 H2 H3 H4).
Qed.
