From Verif Require Import Base.Bytes Model.Color565 Proofs.Color565Facts.

Definition e5 (r : Z) : Z := Z.land (Z.lor (shl16 r 3) (Z.shiftr r 2)) 255.
Definition e6 (g : Z) : Z := Z.land (Z.lor (shl16 g 2) (Z.shiftr g 4)) 255.

Lemma e5_sweep : forallz 0 32 (fun r => (0 <=? e5 r) && (e5 r <? 256) && (e5 r / 8 =? r)) = true.
Proof. vm_compute. reflexivity. Qed.
Lemma e6_sweep : forallz 0 64 (fun g => (0 <=? e6 g) && (e6 g <? 256) && (e6 g / 4 =? g)) = true.
Proof. vm_compute. reflexivity. Qed.
Lemma e5_facts : forall r, 0 <= r < 32 -> 0 <= e5 r < 256 /\ e5 r / 8 = r.
Proof. intros r H. pose proof (forallz_spec _ _ _ e5_sweep r H) as F. cbv beta in F. lia. Qed.
Lemma e6_facts : forall g, 0 <= g < 64 -> 0 <= e6 g < 256 /\ e6 g / 4 = g.
Proof. intros r H. pose proof (forallz_spec _ _ _ e6_sweep r H) as F. cbv beta in F. lia. Qed.

Lemma red_e5 : forall v, 0 <= v < 65536 -> red v = e5 (v / 2048).
Proof.
  intros v H. unfold red, e5.
  rewrite (land_field v 5 11 ltac:(lia) ltac:(lia) : Z.land v 63488 = _).
  rewrite (Z.shiftr_div_pow2 _ 11), Z.div_mul by lia.
  change (2 ^ 11) with 2048. change (2 ^ 5) with 32.
  replace (v / 2048 mod 32) with (v / 2048) by lia. reflexivity.
Qed.
Lemma green_e6 : forall v, 0 <= v < 65536 -> green v = e6 (v / 32 mod 64).
Proof.
  intros v H. unfold green, e6.
  rewrite (land_field v 6 5 ltac:(lia) ltac:(lia) : Z.land v 2016 = _).
  rewrite (Z.shiftr_div_pow2 _ 5), Z.div_mul by lia. reflexivity.
Qed.
Lemma blue_e5 : forall v, blue v = e5 (v mod 32).
Proof. intros v. unfold blue, e5. rewrite land_31. reflexivity. Qed.

Lemma chan_sweep : forallz 0 256 (fun c =>
  (shl16 (Z.land c 248) 8 =? c / 8 * 2048) && (shl16 (Z.land c 252) 3 =? c / 4 * 32)
  && (Z.shiftr c 3 =? c / 8)) = true.
Proof. vm_compute. reflexivity. Qed.

Lemma from_rgb_value : forall r g b, 0 <= r < 256 -> 0 <= g < 256 -> 0 <= b < 256 ->
  from_rgb r g b = (r / 8) * 2048 + (g / 4) * 32 + b / 8.
Proof.
  intros r g b Hr Hg Hb.
  pose proof (forallz_spec _ _ _ chan_sweep r Hr) as F1.
  pose proof (forallz_spec _ _ _ chan_sweep g Hg) as F2.
  pose proof (forallz_spec _ _ _ chan_sweep b Hb) as F3. cbv beta in F1, F2, F3.
  repeat rewrite andb_true_iff in *. rewrite !Z.eqb_eq in *.
  destruct F1 as [[F1 _] _], F2 as [[_ F2] _], F3 as [_ F3].
  unfold from_rgb. rewrite F1, F2, F3. clear F1 F2 F3.
  change 2048 with (2 ^ 11). rewrite lor_mul_add by lia.
  replace (r / 8 * 2 ^ 11 + g / 4 * 32) with ((r / 8 * 64 + g / 4) * 2 ^ 5) by lia.
  rewrite lor_mul_add by lia. lia.
Qed.

Lemma rgb_expand : forall v, 0 <= v < 65536 ->
  (0 <= red v < 256 /\ 0 <= green v < 256 /\ 0 <= blue v < 256) /\
  from_rgb (red v) (green v) (blue v) = v /\
  (red v / 8 = v / 2048 /\ green v / 4 = (v / 32) mod 64 /\ blue v / 8 = v mod 32).
Proof.
  intros v Hv. rewrite red_e5, green_e6, blue_e5 by assumption.
  destruct (e5_facts (v / 2048) ltac:(lia)) as [B1 E1].
  destruct (e6_facts (v / 32 mod 64) ltac:(lia)) as [B2 E2].
  destruct (e5_facts (v mod 32) ltac:(lia)) as [B3 E3].
  split; [tauto|]. split; [|tauto].
  rewrite from_rgb_value by assumption. rewrite E1, E2, E3. lia.
Qed.
