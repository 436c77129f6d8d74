(** The byte picks that stand for shift-and-pack in the model are what the instructions do. *)
From Verif Require Import Base.Bytes Base.Res Model.Kernel Spec.Pack Proofs.Families.
From Coq Require Import ZifyBool ZifyNat.

Lemma z2b_eq : forall x b, x mod 256 = b2z b -> z2b x = b.
Proof. intros x b E. rewrite <- (z2b_b2z b), <- E. unfold z2b. rewrite Z.mod_mod by lia. reflexivity. Qed.

Lemma shl_lane : forall a b c d, le32 (lane_val (a, b, c, d) * 2 ^ 16) = [x00; x00; a; b].
Proof.
  intros a b c d. unfold le32, lane_val. change (2 ^ 16) with 65536.
  pose proof (b2z_bound a). pose proof (b2z_bound b). pose proof (b2z_bound c). pose proof (b2z_bound d).
  repeat (apply f_equal2; [apply z2b_eq; change (b2z x00) with 0; lia|]). reflexivity.
Qed.
Lemma sar_lane : forall a b c d, sat16 (signed32 (lane_val (z2b (signed32 (lane_val (a, b, c, d)) / 2 ^ 16),
    z2b (signed32 (lane_val (a, b, c, d)) / 2 ^ 16 / 256), z2b (signed32 (lane_val (a, b, c, d)) / 2 ^ 16 / 65536),
    z2b (signed32 (lane_val (a, b, c, d)) / 2 ^ 16 / 16777216)))) mod 65536 = b2z c + 256 * b2z d.
Proof.
  intros a b c d. unfold lane_val at 1. rewrite !b2z_z2b. unfold lane_val. change (2 ^ 16) with 65536.
  pose proof (b2z_bound a). pose proof (b2z_bound b). pose proof (b2z_bound c). pose proof (b2z_bound d).
  set (v := b2z a + 256 * (b2z b + 256 * (b2z c + 256 * b2z d))).
  assert (Hv : 0 <= v < 4294967296) by lia.
  assert (V : v / 65536 = b2z c + 256 * b2z d) by (subst v; lia). clearbody v.
  unfold signed32 at 2 3 4 5.
  destruct (v <? 2147483648) eqn:L.
  - set (w := v / 65536) in *. assert (0 <= w < 32768) by (subst w; lia).
    replace (w mod 256 + 256 * ((w / 256) mod 256 + 256 * ((w / 65536) mod 256 + 256 * ((w / 16777216) mod 256)))) with w by lia.
    unfold signed32. replace (w <? 2147483648) with true by lia. unfold sat16. lia.
  - set (w := (v - 4294967296) / 65536) in *. assert (W : w = v / 65536 - 65536) by (subst w; lia).
    assert (-32768 <= w < 0) by (subst w; lia).
    replace (w mod 256 + 256 * ((w / 256) mod 256 + 256 * ((w / 65536) mod 256 + 256 * ((w / 16777216) mod 256)))) with (w + 4294967296) by lia.
    unfold signed32. replace (w + 4294967296 <? 2147483648) with false by lia. unfold sat16. lia.
Qed.
Lemma le16_of : forall x c d, x mod 65536 = b2z c + 256 * b2z d -> le16 x = [c; d].
Proof.
  intros x c d E. unfold le16. pose proof (b2z_bound c). pose proof (b2z_bound d).
  apply f_equal2; [apply z2b_eq; lia|]. apply f_equal2; [apply z2b_eq; lia|reflexivity].
Qed.

(** The picks of tools/rs2v.py. *)
Definition shl_ctrl : list byte := [x80; x80; x00; x01; x80; x80; x04; x05; x80; x80; x08; x09; x80; x80; x0c; x0d].
Definition pack_ctrl : list byte := [x02; x03; x06; x07; x0a; x0b; x0e; x0f; x80; x80; x80; x80; x80; x80; x80; x80].

Lemma slli_picks : forall junk vt x, List.length x = 16%nat ->
  apply_op (cdom junk vt) (OPshufb 1) [x; shl_ctrl] = Some (slli_epi32 16 x).
Proof.
  intros junk vt x H. list_len x H. unfold slli_epi32. cbn [lanes map List.concat]. rewrite !shl_lane. reflexivity.
Qed.
Lemma srai_packs_picks : forall junk vt x y, List.length x = 16%nat -> List.length y = 16%nat ->
  exists lo hi, apply_op (cdom junk vt) (OPshufb 1) [x; pack_ctrl] = Some lo /\ apply_op (cdom junk vt) (OPshufb 1) [y; pack_ctrl] = Some hi /\
  exists lo' hi', apply_op (cdom junk vt) (OBytes 0 8) [lo] = Some lo' /\ apply_op (cdom junk vt) (OBytes 0 8) [hi] = Some hi' /\
  apply_op (cdom junk vt) OConcat [lo'; hi'] = Some (packs_epi32 (srai_epi32 16 x) (srai_epi32 16 y)).
Proof.
  intros junk vt x y Hx Hy. list_len x Hx. list_len y Hy.
  eexists. eexists. split; [reflexivity|]. split; [reflexivity|]. eexists. eexists. split; [reflexivity|]. split; [reflexivity|].
  unfold srai_epi32, packs_epi32. cbn [lanes map List.concat]. unfold le32. cbn [app lanes map List.concat].
  rewrite !(fun a b c d => le16_of _ _ _ (sar_lane a b c d)). reflexivity.
Qed.
