(** C04, C05, C40: colours. *)
From Verif Require Import Base.Bytes Model.Color565 Model.Lanes Model.LanesGen Model.Ycc.
From Verif Require Import Proofs.Color565Facts Proofs.LanesFacts Proofs.Rgb565Facts Props.Cases.

(** C04 (single colours): recorrelate and decorrelate are inverse bijections of
    the 16-bit colours, for every variant. *)
Theorem C04_color_bijection : forall (v : variant) (x : Z), 0 <= x < 65536 ->
  0 <= decorrelate v x < 65536 /\ 0 <= recorrelate v x < 65536 /\
  recorrelate v (decorrelate v x) = x /\ decorrelate v (recorrelate v x) = x.
Proof.
  intros v x H.
  exact (conj (decorrelate_bound v x H) (conj (recorrelate_bound v x H)
        (conj (recorrelate_decorrelate v x H) (decorrelate_recorrelate v x H)))).
Qed.
Print Assumptions C04_color_bijection.

Example C04_nontrivial :
  map (fun v => decorrelate v 51914) all_variants = [51914; 62426; 31226; 62452].
Proof. vm_compute. reflexivity. Qed.

(** C05: every lane of every SIMD routine computes the scalar function. *)
Theorem C05_simd_lane_is_scalar :
  forall (odd : bool) (x : Z), 0 <= x < 65536 ->
  (decorrelate_ycocg_r_var1_sse2 odd x = decorrelate_var1 x /\
   decorrelate_ycocg_r_var2_sse2 odd x = decorrelate_var2 x /\
   decorrelate_ycocg_r_var3_sse2 odd x = decorrelate_var3 x /\
   recorrelate_ycocg_r_var1_sse2 odd x = recorrelate_var1 x /\
   recorrelate_ycocg_r_var2_sse2 odd x = recorrelate_var2 x /\
   recorrelate_ycocg_r_var3_sse2 odd x = recorrelate_var3 x) /\
  (decorrelate_ycocg_r_var1_avx2 odd x = decorrelate_var1 x /\
   decorrelate_ycocg_r_var2_avx2 odd x = decorrelate_var2 x /\
   decorrelate_ycocg_r_var3_avx2 odd x = decorrelate_var3 x /\
   recorrelate_ycocg_r_var1_avx2 odd x = recorrelate_var1 x /\
   recorrelate_ycocg_r_var2_avx2 odd x = recorrelate_var2 x /\
   recorrelate_ycocg_r_var3_avx2 odd x = recorrelate_var3 x) /\
  (decorrelate_ycocg_r_var1_avx512bw odd x = decorrelate_var1 x /\
   decorrelate_ycocg_r_var2_avx512bw odd x = decorrelate_var2 x /\
   decorrelate_ycocg_r_var3_avx512bw odd x = decorrelate_var3 x /\
   recorrelate_ycocg_r_var1_avx512bw odd x = recorrelate_var1 x /\
   recorrelate_ycocg_r_var2_avx512bw odd x = recorrelate_var2 x /\
   recorrelate_ycocg_r_var3_avx512bw odd x = recorrelate_var3 x).
Proof. exact simd_lanes. Qed.
Print Assumptions C05_simd_lane_is_scalar.

Example C05_nontrivial :
  decorrelate_ycocg_r_var2_avx512bw true 51914 = 31226.
Proof. vm_compute. reflexivity. Qed.

(** C40: expanding and packing again is the identity; the expansion keeps each
    channel in its top bits; packing truncates each channel; [greater_than]
    compares raw values. *)
Theorem C40_expand_pack : forall v, 0 <= v < 65536 ->
  (0 <= red v < 256 /\ 0 <= green v < 256 /\ 0 <= blue v < 256) /\
  from_rgb (red v) (green v) (blue v) = v /\
  (red v / 8 = v / 2048 /\ green v / 4 = (v / 32) mod 64 /\ blue v / 8 = v mod 32).
Proof. exact rgb_expand. Qed.
Print Assumptions C40_expand_pack.
(** an orange *)
Example C40_expand_pack_met :
  let v := 64520 in
  0 <= v < 65536 /\ red v = 255 /\ green v = 130.
Proof. met. Qed.

Theorem C40_pack_truncates : forall r g b, 0 <= r < 256 -> 0 <= g < 256 -> 0 <= b < 256 ->
  from_rgb r g b = (r / 8) * 2048 + (g / 4) * 32 + b / 8.
Proof. exact from_rgb_value. Qed.
Print Assumptions C40_pack_truncates.
(** an orange *)
Example C40_pack_truncates_met :
  let r := 255 in let g := 128 in let b := 64 in
  0 <= r < 256 /\ 0 <= g < 256 /\ 0 <= b < 256 /\ from_rgb r g b = 64520.
Proof. met. Qed.

Theorem C40_color8888_roundtrip : forall v a, 0 <= v < 65536 ->
  to_565_lossy (to_8888_lossy v) = v /\ to_565_lossy (to_8888_with_alpha_lossy v a) = v /\
  c_a (to_8888_lossy v) = 255 /\ c_a (to_8888_with_alpha_lossy v a) = a.
Proof.
  intros v a H. destruct (rgb_expand v H) as (_ & E & _).
  exact (conj E (conj E (conj eq_refl eq_refl))).
Qed.
Print Assumptions C40_color8888_roundtrip.
(** an orange, nearly transparent *)
Example C40_color8888_roundtrip_met :
  let v := 64520 in let a := 17 in
  0 <= v < 65536 /\ to_8888_with_alpha_lossy v a <> to_8888_lossy v.
Proof. met. Qed.

Theorem C40_greater_than : forall a b, greater_than a b = true <-> a > b.
Proof. intros a b. unfold greater_than. rewrite Z.ltb_lt. lia. Qed.
Print Assumptions C40_greater_than.

Example C40_nontrivial : from_rgb 255 128 64 = 64520 /\ red 64520 = 255 /\ green 64520 = 130.
Proof. vm_compute. repeat split. Qed.
