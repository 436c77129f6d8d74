(** Pixels and normal forms: what the tests on decoded blocks mean, and that
    normal forms keep the picture. *)
From Verif Require Import Base.Bytes Base.Res Model.Color565 Model.Decode Model.Normalize Spec.Pixels Spec.Normalize
  Proofs.Color565Facts Proofs.Rgb565Facts Proofs.DecodeFacts.
From Coq Require Import ZifyBool ZifyNat.

Lemma color_eqb_eq : forall x y, color_eqb x y = true <-> x = y.
Proof.
  intros [r g b a] [r' g' b' a']. unfold color_eqb. cbn [c_r c_g c_b c_a]. split.
  - intros H. f_equal; lia.
  - intros H. injection H as -> -> -> ->. lia.
Qed.

Lemma all_16 : forall (f : color8888 -> bool) (px : nat -> color8888),
  forallb f (map px (seq 0 16)) = true <-> forall i, (i < 16)%nat -> f (px i) = true.
Proof.
  intros f px. rewrite forallb_forall. split.
  - intros H i I. apply H. apply in_map. apply in_seq. lia.
  - intros H x X. apply in_map_iff in X. destruct X as [i [<- I]]. apply H. apply in_seq in I. lia.
Qed.

Lemma first_pixel : forall px b, nth 0 (picture px b) blank = px b 0%nat.
Proof. reflexivity. Qed.

Lemma identical_iff : forall px b, has_identical_pixels (picture px b) = true <-> forall i, (i < 16)%nat -> px b i = px b 0%nat.
Proof.
  intros px b. unfold has_identical_pixels. rewrite first_pixel. unfold picture. rewrite all_16. split; intros H i I.
  - apply color_eqb_eq. apply H. exact I.
  - apply color_eqb_eq. apply H. exact I.
Qed.

Lemma identical_rgb_iff : forall px b, has_identical_pixels_ignore_alpha (picture px b) = true <->
  forall i, (i < 16)%nat -> (c_r (px b i), c_g (px b i), c_b (px b i)) = (c_r (px b 0%nat), c_g (px b 0%nat), c_b (px b 0%nat)).
Proof.
  intros px b. unfold has_identical_pixels_ignore_alpha. rewrite first_pixel. unfold picture. rewrite all_16. split; intros H i I.
  - specialize (H i I). apply color_eqb_eq in H. unfold without_alpha in H. injection H as -> -> ->. reflexivity.
  - specialize (H i I). apply color_eqb_eq. unfold without_alpha. injection H as -> -> ->. reflexivity.
Qed.

Lemma identical_alpha_iff : forall px b, has_identical_alpha (picture px b) = true <->
  forall i, (i < 16)%nat -> c_a (px b i) = c_a (px b 0%nat).
Proof.
  intros px b. unfold has_identical_alpha. rewrite first_pixel. unfold picture. rewrite all_16. split; intros H i I; specialize (H i I); lia.
Qed.

(** ** Channel values are bytes *)
Definition small3 (x : Z * Z * Z) : Prop := let '(r, g, b) := x in 0 <= r < 256 /\ 0 <= g < 256 /\ 0 <= b < 256.
Definition small (c : color8888) : Prop := 0 <= c_r c < 256 /\ 0 <= c_g c < 256 /\ 0 <= c_b c < 256.

Lemma le_lt : forall l, le l < 256 ^ zlen l.
Proof.
  induction l as [|b l IH]; [cbn; lia|]. cbn [le]. rewrite zlen_cons. pose proof (b2z_bound b). pose proof (zlen_nonneg _ l).
  rewrite Z.pow_add_r by lia. change (256 ^ 1) with 256. nia.
Qed.
Lemma le_firstn2 : forall l, 0 <= le (firstn 2 l) < 65536.
Proof.
  intros l. split; [apply le_bound|]. destruct l as [|a [|b l]]; cbn [firstn le]; [lia| |].
  - pose proof (b2z_bound a). lia.
  - pose proof (b2z_bound a). pose proof (b2z_bound b). lia.
Qed.

Lemma rgb_small : forall v, 0 <= v < 65536 -> small3 (rgb v).
Proof. intros v V. unfold rgb, widen5, widen6, small3. lia. Qed.

Lemma blend_small : forall w0 w1 d x y, 0 <= w0 -> 0 <= w1 -> w0 + w1 = d -> 0 < d -> small3 x -> small3 y -> small3 (blend w0 w1 d x y).
Proof.
  intros w0 w1 d [[r g] b] [[r' g'] b'] H1 H2 H3 H4 [X1 [X2 X3]] [Y1 [Y2 Y3]]. unfold blend, small3.
  assert (K : forall s t, 0 <= s < 256 -> 0 <= t < 256 -> 0 <= (w0 * s + w1 * t) / d < 256).
  { intros s t S T. split; [apply Z.div_pos; nia|]. apply Z.div_lt_upper_bound; nia. }
  auto.
Qed.

Lemma four_small : forall c0 c1 k, 0 <= c0 < 65536 -> 0 <= c1 < 65536 -> small3 (four_colours c0 c1 k).
Proof.
  intros c0 c1 k H0 H1. pose proof (rgb_small c0 H0). pose proof (rgb_small c1 H1).
  assert (A : small3 (blend 2 1 3 (rgb c0) (rgb c1))) by (apply blend_small; auto; lia).
  assert (B : small3 (blend 1 2 3 (rgb c0) (rgb c1))) by (apply blend_small; auto; lia).
  unfold four_colours. destruct k as [|[p|[p|p|]|]|p]; auto.
Qed.

Lemma opaque_small : forall x, small3 x -> small (opaque x).
Proof. intros [[r g] b] H. exact H. Qed.

Lemma bc1_shape : forall b i, bc1_pixel b i = mkC 0 0 0 0 \/ exists x, small3 x /\ bc1_pixel b i = opaque x.
Proof.
  intros b i. unfold bc1_pixel. pose proof (le_firstn2 b) as C0. pose proof (le_firstn2 (skipn 2 b)) as C1.
  set (c0 := le (firstn 2 b)) in *. set (c1 := le (firstn 2 (skipn 2 b))) in *. set (k := bits _ 2 i).
  destruct (c1 <? c0); [right; exists (four_colours c0 c1 k); split; [apply four_small; assumption|reflexivity]|].
  pose proof (rgb_small c0 C0) as R0. pose proof (rgb_small c1 C1) as R1.
  assert (A : small3 (blend 1 1 2 (rgb c0) (rgb c1))) by (apply blend_small; auto; lia).
  destruct k as [|[p|[p|p|]|]|p]; first [left; reflexivity
    | right; exists (rgb c0); split; [exact R0|reflexivity]
    | right; exists (rgb c1); split; [exact R1|reflexivity]
    | right; exists (blend 1 1 2 (rgb c0) (rgb c1)); split; [exact A|reflexivity]].
Qed.

Lemma colour_of_small : forall b i a, small (colour_of b i a).
Proof.
  intros b i a. unfold colour_of. pose proof (le_firstn2 (skipn 8 b)) as C0. pose proof (le_firstn2 (skipn 10 b)) as C1.
  pose proof (four_small _ _ (bits (le (firstn 4 (skipn 12 b))) 2 i) C0 C1) as F.
  destruct (four_colours _ _ _) as [[r g] bl]. exact F.
Qed.

Lemma to_565_bound : forall c, small c -> 0 <= to_565_lossy c < 65536.
Proof. intros c [R [G B]]. unfold to_565_lossy. rewrite from_rgb_value by assumption. lia. Qed.

Lemma to_565_rgb : forall v, 0 <= v < 65536 -> forall c, (c_r c, c_g c, c_b c) = rgb v -> to_565_lossy c = v.
Proof.
  intros v V c E. rewrite (rgb_channels v V) in E. injection E as E1 E2 E3. unfold to_565_lossy. rewrite E1, E2, E3.
  destruct (rgb_expand v V) as [_ [X _]]. exact X.
Qed.

(** ** The tests *)
Lemma bc1_classify_ok : forall b,
  match bc1_classify (picture bc1_pixel b) with
  | (Transparent, _) => bc1_transparent b
  | (SolidColorRoundtrippable, v) => bc1_solid b v
  | (CannotNormalize, _) => ~ bc1_transparent b /\ ~ exists v, bc1_solid b v
  end.
Proof.
  intros b. unfold bc1_classify. destruct (has_identical_pixels (picture bc1_pixel b)) eqn:E.
  - rewrite first_pixel. rewrite identical_iff in E.
    destruct (bc1_shape b 0) as [Z0|[x [SX X]]].
    + rewrite Z0. cbn [c_a Z.eqb]. intros i I. rewrite E by exact I. exact Z0.
    + assert (A : c_a (bc1_pixel b 0) = 255) by (rewrite X; destruct x as [[r g] bl]; reflexivity).
      rewrite A. cbn [Z.eqb]. 
      assert (NT : ~ bc1_transparent b).
      { intros T. specialize (T 0%nat). rewrite T in A by lia. discriminate A. }
      assert (SM : small (bc1_pixel b 0)) by (rewrite X; apply opaque_small; exact SX).
      pose proof (to_565_bound _ SM) as VB. set (v := to_565_lossy (bc1_pixel b 0)) in *.
      destruct (color_eqb (to_8888_lossy v) (bc1_pixel b 0)) eqn:Q.
      * apply color_eqb_eq in Q. split; [exact VB|]. intros i I. rewrite E, <- Q by exact I. apply to_8888_rgb. exact VB.
      * split; [exact NT|]. intros [w [W S]]. assert (P0 : bc1_pixel b 0 = opaque (rgb w)) by (apply S; lia).
        assert (WV : v = w).
        { unfold v. apply to_565_rgb; [exact W|]. rewrite P0. destruct (rgb w) as [[r g] bl]. reflexivity. }
        assert (color_eqb (to_8888_lossy v) (bc1_pixel b 0) = true) by (apply color_eqb_eq; rewrite WV, P0; apply to_8888_rgb; exact W).
        congruence.
  - split.
    + intros T. assert (has_identical_pixels (picture bc1_pixel b) = true); [|congruence].
      apply identical_iff. intros i I. rewrite !T by lia. reflexivity.
    + intros [v [V S]]. assert (has_identical_pixels (picture bc1_pixel b) = true); [|congruence].
      apply identical_iff. intros i I. rewrite !S by lia. reflexivity.
Qed.

Lemma solid_color_ok : forall px b, (forall i, small (px b i)) ->
  match solid_color (picture px b) with Some v => one_colour px b v | None => ~ exists v, one_colour px b v end.
Proof.
  intros px b SM. unfold solid_color. destruct (has_identical_pixels_ignore_alpha (picture px b)) eqn:E.
  - rewrite first_pixel. pose proof (to_565_bound _ (SM 0%nat)) as VB. rewrite identical_rgb_iff in E.
    set (v := to_565_lossy (px b 0%nat)) in *.
    destruct (color_eqb (with_alpha (to_8888_lossy v) 255) (with_alpha (px b 0%nat) 255)) eqn:Q.
    + apply color_eqb_eq in Q. split; [exact VB|]. intros i I. rewrite E by exact I. unfold with_alpha, to_8888_lossy in Q. cbn [c_r c_g c_b c_a] in Q.
      injection Q as <- <- <-. symmetry. apply rgb_channels. exact VB.
    + intros [w [W S]]. assert (P0 := S 0%nat ltac:(lia)).
      assert (WV : v = w) by (apply to_565_rgb; assumption).
      assert (color_eqb (with_alpha (to_8888_lossy v) 255) (with_alpha (px b 0%nat) 255) = true); [|congruence].
      apply color_eqb_eq. rewrite WV. rewrite (rgb_channels w W) in P0. unfold with_alpha, to_8888_lossy. cbn [c_r c_g c_b c_a].
      injection P0 as -> -> ->. reflexivity.
  - intros [v [V S]]. assert (has_identical_pixels_ignore_alpha (picture px b) = true); [|congruence].
    apply identical_rgb_iff. intros i I. rewrite !S by lia. reflexivity.
Qed.

(** ** Normal forms keep the picture *)
Lemma le_lo_hi : forall v, 0 <= v < 65536 -> le [lo8 v; hi8 v] = v.
Proof. intros v V. rewrite le2. apply u16le_lo_hi. exact V. Qed.
Lemma bits_0 : forall w i, bits 0 w i = 0.
Proof. intros. unfold bits. rewrite Z.div_0_l by (apply Z.pow_nonzero; lia). apply Z.mod_0_l. apply Z.pow_nonzero; lia. Qed.

Lemma bc1_solid_pixels : forall mode v i, 0 <= v < 65536 -> bc1_pixel (solid_bytes mode v) i = opaque (rgb v).
Proof.
  intros mode v i V. unfold bc1_pixel, solid_bytes. destruct mode; cbn [app firstn skipn]; rewrite le_lo_hi by exact V;
    change (le [x00; x00; x00; x00]) with 0; rewrite bits_0; cbn [four_colours]; match goal with |- context [if ?c then _ else _] => destruct c end; reflexivity.
Qed.

Lemma bc1_ff_pixels : forall i, (i < 16)%nat -> bc1_pixel (repeat xff 8) i = mkC 0 0 0 0.
Proof. intros i I. do 16 (destruct i as [|i]; [reflexivity|]). lia. Qed.

Lemma picture_eq : forall px b b', (forall i, (i < 16)%nat -> px b' i = px b i) -> picture px b' = picture px b.
Proof. intros px b b' H. unfold picture. apply map_ext_in. intros i I. apply in_seq in I. apply H. lia. Qed.
Lemma picture_inv : forall px b b', picture px b' = picture px b -> forall i, (i < 16)%nat -> px b' i = px b i.
Proof.
  intros px b b' H i I. assert (E : nth i (picture px b') blank = nth i (picture px b) blank) by (rewrite H; reflexivity).
  assert (L : forall c, nth i (picture px c) blank = px c i).
  { intros c. unfold picture. rewrite (nth_indep _ blank (px c 0%nat)) by (rewrite map_length, seq_length; exact I).
    rewrite map_nth. rewrite seq_nth by exact I. reflexivity. }
  rewrite !L in E. exact E.
Qed.

Lemma bc1_normal_picture : forall mode b b', bc1_normal mode b b' -> picture bc1_pixel b' = picture bc1_pixel b.
Proof.
  intros mode b b' [[_ ->]|[_ [[T ->]|[[v [[V S] ->]]|[_ [_ ->]]]]]]; try reflexivity; apply picture_eq; intros i I.
  - rewrite T by exact I. apply bc1_ff_pixels. exact I.
  - rewrite S by exact I. apply bc1_solid_pixels. exact V.
Qed.

(** Blocks of 16 bytes: alpha part and colour part. *)
Lemma halves : forall b : list byte, zlen b = 16 -> b = slice b 0 8 ++ slice b 8 8.
Proof. intros b H. pose proof (slice_app_split _ b 0 8 8 ltac:(lia) ltac:(lia) ltac:(lia)) as E. cbn [Z.add] in E. rewrite <- E. rewrite <- (slice_all _ b) at 1. rewrite H. reflexivity. Qed.

Definition colours (c : list byte) (i : nat) : Z * Z * Z :=
  four_colours (le (firstn 2 c)) (le (firstn 2 (skipn 2 c))) (bits (le (firstn 4 (skipn 4 c))) 2 i).
Lemma colour_of_app : forall a c i z, zlen a = 8 -> colour_of (a ++ c) i z = (let '(r, g, b) := colours c i in mkC r g b z).
Proof.
  intros a c i z H. unfold zlen in H. unfold colour_of, colours.
  rewrite !skipn_app. rewrite (skipn_all2 a (n := 8)), (skipn_all2 a (n := 10)), (skipn_all2 a (n := 12)) by lia. cbn [app].
  replace (8 - List.length a)%nat with 0%nat by lia. replace (10 - List.length a)%nat with 2%nat by lia. replace (12 - List.length a)%nat with 4%nat by lia.
  reflexivity.
Qed.

Lemma colours_solid : forall mode v i, 0 <= v < 65536 -> colours (solid_bytes mode v) i = rgb v.
Proof.
  intros mode v i V. unfold colours, solid_bytes. destruct mode; cbn [app firstn skipn]; rewrite le_lo_hi by exact V;
    change (le [x00; x00; x00; x00]) with 0; rewrite bits_0; reflexivity.
Qed.

Definition bc2_alpha (a : list byte) (i : nat) : Z := 17 * bits (le (firstn 8 a)) 4 i.
Lemma bc2_pixel_app : forall a c i, zlen a = 8 -> bc2_pixel (a ++ c) i = (let '(r, g, b) := colours c i in mkC r g b (bc2_alpha a i)).
Proof.
  intros a c i H. unfold bc2_pixel. rewrite firstn_app_short by (unfold zlen in H; lia). apply colour_of_app. exact H.
Qed.

Definition bc3_alpha_at (a : list byte) (i : nat) : Z := bc3_alpha (le (firstn 1 a)) (le (firstn 1 (skipn 1 a))) (bits (le (firstn 6 (skipn 2 a))) 3 i).
Lemma bc3_pixel_app : forall a c i, zlen a = 8 -> bc3_pixel (a ++ c) i = (let '(r, g, b) := colours c i in mkC r g b (bc3_alpha_at a i)).
Proof.
  intros a c i H. unfold bc3_pixel. unfold zlen in H.
  rewrite firstn_app_short by lia. rewrite (firstn_skipn_app a c 1 1), (firstn_skipn_app a c 2 6) by lia. apply colour_of_app. unfold zlen. exact H.
Qed.

Lemma solid_len : forall mode v, zlen (solid_bytes mode v) = 8.
Proof. intros [] v; reflexivity. Qed.

(** The colours of the normalised colour part are the block's. *)
Lemma colour_normal_len : forall px mode b c, zlen b = 16 -> colour_normal px mode b c -> zlen c = 8.
Proof.
  intros px mode b c L [[_ ->]|[_ [[v [_ ->]]|[_ ->]]]]; try (apply zlen_slice; lia). apply solid_len.
Qed.
Lemma colour_normal_ok : forall px (al : list byte -> nat -> Z) mode b c,
  (forall a c i, zlen a = 8 -> px (a ++ c) i = (let '(r, g, b) := colours c i in mkC r g b (al a i))) ->
  zlen b = 16 -> colour_normal px mode b c -> forall i, (i < 16)%nat -> colours c i = colours (slice b 8 8) i.
Proof.
  intros px al mode b c PA L [[_ ->]|[_ [[v [[V S] ->]]|[_ ->]]]] i I; try reflexivity.
  rewrite colours_solid by exact V. specialize (S i I). rewrite (halves b L) in S. rewrite PA in S by (apply zlen_slice; lia).
  destruct (colours (slice b 8 8) i) as [[r g] bl]. symmetry. exact S.
Qed.

Lemma bc2_normal_picture : forall mode b b', zlen b = 16 -> bc2_normal mode b b' -> picture bc2_pixel b' = picture bc2_pixel b.
Proof.
  intros mode b b' L [c [CN ->]]. apply picture_eq. intros i I.
  pose proof (colour_normal_ok _ _ _ _ _ bc2_pixel_app L CN i I) as E.
  rewrite bc2_pixel_app by (apply zlen_slice; lia). replace (bc2_pixel b i) with (bc2_pixel (slice b 0 8 ++ slice b 8 8) i) by (rewrite <- halves by exact L; reflexivity). rewrite bc2_pixel_app by (apply zlen_slice; lia).
  rewrite E. reflexivity.
Qed.

(** Alpha *)
Lemma bc3_alpha_bound : forall a0 a1 k, 0 <= a0 < 256 -> 0 <= a1 < 256 -> 0 <= k < 8 -> 0 <= bc3_alpha a0 a1 k < 256.
Proof.
  intros a0 a1 k A0 A1 K. unfold bc3_alpha. destruct (eight k K) as [-> | [-> | [-> | [-> | [-> | [-> | [-> | ->]]]]]]];
    [lia|lia|..]; destruct (a1 <? a0); lia.
Qed.
Lemma bc3_alpha_at_bound : forall a i, 0 <= bc3_alpha_at a i < 256.
Proof.
  intros a i. unfold bc3_alpha_at. apply bc3_alpha_bound.
  - destruct a as [|x a]; cbn [firstn le]; [lia|]. pose proof (b2z_bound x). lia.
  - destruct a as [|y [|x a]]; cbn [firstn skipn le]; [lia|lia|]. pose proof (b2z_bound x). lia.
  - pose proof (bits_bound (le (firstn 6 (skipn 2 a))) 3 i) as B. exact B.
Qed.

Lemma alpha_bytes_at : forall mode a i, 0 <= a < 256 -> (i < 16)%nat -> bc3_alpha_at (alpha_bytes mode a) i = a.
Proof.
  intros mode a i A I.
  assert (P : bc3_alpha_at ([z2b a; x00] ++ repeat x00 6) i = a).
  { unfold bc3_alpha_at. cbn [app firstn skipn repeat]. change (le [x00; x00; x00; x00; x00; x00]) with 0. rewrite bits_0, le1. cbn [bc3_alpha].
    rewrite b2z_z2b. lia. }
  unfold alpha_bytes. destruct (Z.eq_dec a 255) as [->|NE].
  - destruct mode; try exact P; clear P; do 16 (destruct i as [|i]; [reflexivity|]); lia.
  - destruct mode; try exact P.
    + replace (match a with 255 => repeat xff 8 | _ => [z2b a; x00] ++ repeat x00 6 end) with ([z2b a; x00] ++ repeat x00 6); [exact P|].
      clear - NE. destruct a as [|p|p]; try reflexivity. do 8 (destruct p as [p|p|]; try reflexivity). lia.
    + replace (match a with 255 => [x00; x00] ++ repeat xff 6 | _ => [z2b a; x00] ++ repeat x00 6 end) with ([z2b a; x00] ++ repeat x00 6); [exact P|].
      clear - NE. destruct a as [|p|p]; try reflexivity. do 8 (destruct p as [p|p|]; try reflexivity). lia.
Qed.
Lemma alpha_bytes_eq : forall mode a, alpha_bytes mode a =
  match mode with
  | OpaqueFillAll => if a =? 255 then repeat xff 8 else [z2b a; x00] ++ repeat x00 6
  | OpaqueZeroAlphaMaxIndices => if a =? 255 then [x00; x00] ++ repeat xff 6 else [z2b a; x00] ++ repeat x00 6
  | _ => [z2b a; x00] ++ repeat x00 6
  end.
Proof.
  intros mode a. unfold alpha_bytes. destruct mode; try reflexivity; destruct (a =? 255) eqn:E.
  - assert (a = 255) as -> by lia. reflexivity.
  - destruct a as [|p|p]; try reflexivity. do 8 (destruct p as [p|p|]; try reflexivity). cbn in E. discriminate E.
  - assert (a = 255) as -> by lia. reflexivity.
  - destruct a as [|p|p]; try reflexivity. do 8 (destruct p as [p|p|]; try reflexivity). cbn in E. discriminate E.
Qed.
Lemma alpha_len : forall mode a, zlen (alpha_bytes mode a) = 8.
Proof. intros mode a. rewrite alpha_bytes_eq. destruct mode; try reflexivity; destruct (a =? 255); reflexivity. Qed.

Lemma alpha_normal_len : forall mode b a, zlen b = 16 -> alpha_normal mode b a -> zlen a = 8.
Proof.
  intros mode b a L [[_ ->]|[_ [[v [_ ->]]|[_ ->]]]]; try (apply zlen_slice; lia). apply alpha_len.
Qed.

Lemma bc3_alpha_of : forall b i, zlen b = 16 -> c_a (bc3_pixel b i) = bc3_alpha_at (slice b 0 8) i.
Proof.
  intros b i L. rewrite (halves b L) at 1. rewrite bc3_pixel_app by (apply zlen_slice; lia). destruct (colours _ i) as [[r g] bl]. reflexivity.
Qed.
Lemma bc3_normal_picture : forall amode cmode b b', zlen b = 16 -> bc3_normal amode cmode b b' -> picture bc3_pixel b' = picture bc3_pixel b.
Proof.
  intros amode cmode b b' L [a [c [AN [CN ->]]]]. apply picture_eq. intros i I.
  pose proof (colour_normal_ok _ _ _ _ _ bc3_pixel_app L CN i I) as E.
  rewrite bc3_pixel_app by (eapply alpha_normal_len; eassumption). replace (bc3_pixel b i) with (bc3_pixel (slice b 0 8 ++ slice b 8 8) i) by (rewrite <- halves by exact L; reflexivity). rewrite bc3_pixel_app by (apply zlen_slice; lia).
  rewrite E. destruct (colours (slice b 8 8) i) as [[r g] bl]. f_equal.
  destruct AN as [[_ ->]|[_ [[v [[V S] ->]]|[_ ->]]]]; try reflexivity.
  rewrite alpha_bytes_at by assumption. rewrite <- bc3_alpha_of by exact L. symmetry. apply S. exact I.
Qed.
