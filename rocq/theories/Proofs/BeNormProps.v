(** The normalising transform on a big-endian machine, as stated in Props/PBeNorm.v. *)
From Verif Require Import Base.Bytes Base.Res Model.Color565 Model.Kernel Model.Transform Model.Auto Model.Decode Model.Normalize Model.NormTransform
  Model.BigEndian Model.BeTransform Model.BeFiles Model.BeNormTransform
  Spec.YCoCg Spec.Layout Spec.BigEndian Spec.Pixels Spec.Normalize Spec.Estimator Spec.NormTransform Spec.BeFiles
  Proofs.LayoutFacts Proofs.BigEndianFacts Proofs.NormLoop Proofs.NormalizeFacts Proofs.NormDerived Proofs.NormTransformFacts Proofs.NormAutoTheorems Proofs.BeNormAutoTheorems.
From Coq Require Import ZifyBool ZifyNat.

Lemma be_norm_round_trip : forall (d1 d2 : bool) (j1 j2 : byte) (even : bool) (m : list byte) (inp out work len : Z) (d : details) (out2 : list byte),
  len mod 8 = 0 -> within m inp len -> within m out len -> within m work (len / 2) ->
  inp + len <= out \/ out + len <= inp -> inp + len <= work \/ work + len / 2 <= inp -> work + len / 2 <= out \/ out + len <= work ->
  even = true \/ d_decorr d = VNone -> (d1 = true -> d_split d = true -> 0 < len) -> len <= zlen out2 ->
  exists m' y, be_transform_bc1_with_normalize_blocks (big_endian_cpu d1 j1) even inp out work len d m = Ok m' /\ only_changes [(out, len); (work, len / 2)] m m' /\
    blockwise 8 (bc1_normal (d_norm d)) (slice m inp len) y /\
    blockwise 8 (fun b b' => picture bc1_pixel b' = picture bc1_pixel b) (slice m inp len) y /\
    slice m' out len = be_bc1_layout (d_decorr d) (d_split d) y /\
    be_untransform_bc1 (big_endian_cpu d2 j2) (untransform_settings d) (slice m' out len) out2 = Ok (ROk tt, y ++ skipn (Z.to_nat len) out2).
Proof.
  intros d1 d2 j1 j2 even m inp out work len d out2 M WI WO WW A1 A2 A3 EV SL L2.
  apply (be_lC51 (big_endian_cpu d1 j1) (big_endian_cpu d2 j2)); try assumption; try apply big_endian_ok.
  intros SP D. specialize (SL D SP). lia.
Qed.

Lemma be_norm_none : forall (d1 d2 : bool) (j1 j2 : byte) (even : bool) (m : list byte) (inp out work len : Z) (d : details) (m' out2 : list byte),
  len mod 8 = 0 -> within m inp len -> within m out len -> within m work (len / 2) ->
  inp + len <= out \/ out + len <= inp -> inp + len <= work \/ work + len / 2 <= inp -> work + len / 2 <= out \/ out + len <= work ->
  even = true \/ d_decorr d = VNone -> (d1 = true -> d_split d = true -> 0 < len) -> len <= zlen out2 ->
  d_norm d = CNone -> be_transform_bc1_with_normalize_blocks (big_endian_cpu d1 j1) even inp out work len d m = Ok m' ->
  be_transform_bc1 (big_endian_cpu d2 j2) (untransform_settings d) (slice m inp len) out2 = Ok (ROk tt, slice m' out len ++ skipn (Z.to_nat len) out2).
Proof.
  intros d1 d2 j1 j2 even m inp out work len d m' out2 M WI WO WW A1 A2 A3 EV SL L2.
  apply (be_lC51_none (big_endian_cpu d1 j1) (big_endian_cpu d2 j2)) with (work := work) (even := even); try assumption; try apply big_endian_ok.
  intros SP D. specialize (SL D SP). lia.
Qed.

(** What a little-endian machine writes. *)
Lemma be_norm_same : forall (c : cfg) (debug : bool) (junk : byte) (even even' : bool) (m : list byte) (inp out work len : Z) (d : details) (m1 m2 : list byte),
  cpu_ok c -> len mod 8 = 0 -> within m inp len -> within m out len -> within m work (len / 2) ->
  inp + len <= out \/ out + len <= inp -> inp + len <= work \/ work + len / 2 <= inp -> work + len / 2 <= out \/ out + len <= work ->
  (d_split d = true -> splittable c (len / 8)) -> (debug = true -> d_split d = true -> 0 < len) -> d_decorr d = VNone ->
  transform_bc1_with_normalize_blocks c even inp out work len d m = Ok m1 ->
  be_transform_bc1_with_normalize_blocks (big_endian_cpu debug junk) even' inp out work len d m = Ok m2 ->
  slice m1 out len = slice m2 out len.
Proof.
  intros c debug junk even even' m inp out work len d m1 m2 K M WI WO WW A1 A2 A3 SL1 SL2 N E1 E2.
  assert (LY : forall y : list byte, bc1_layout VNone (d_split d) y = be_bc1_layout VNone (d_split d) y).
  { intros y. unfold bc1_layout, be_bc1_layout, bc1_fields, be_bc1_fields. unfold lay.
    assert (C : forall off b, be_colour VNone off b = colour VNone off b).
    { intros off b. unfold be_colour, colour. change (ycocg VNone (u16be (nth off b x00) (nth (S off) b x00))) with (u16be (nth off b x00) (nth (S off) b x00)).
      change (ycocg VNone (u16le (nth off b x00) (nth (S off) b x00))) with (u16le (nth off b x00) (nth (S off) b x00)).
      rewrite BeNormTransformFacts.hi8_u16be, BeNormTransformFacts.lo8_u16be, lo8_u16le, hi8_u16le. reflexivity. }
    assert (C2 : forall b, both (be_colour VNone 0) (be_colour VNone (0 + 2)) b = both (colour VNone 0) (colour VNone (0 + 2)) b) by (intros b; unfold both; rewrite !C; reflexivity).
    destruct (d_split d); cbn [colour_fields be_colour_fields app map].
    - rewrite (map_ext _ _ (C 0%nat) (blocks 8 y)), (map_ext _ _ (C (0 + 2)%nat) (blocks 8 y)). reflexivity.
    - rewrite (map_ext _ _ C2 (blocks 8 y)). reflexivity. }
  destruct (lC51 c c even m inp out work len d (repeat x00 (Z.to_nat len))) as (m1' & y1 & F1 & _ & B1 & _ & S1 & _); try assumption.
  { right. exact N. }
  { intros D SP. destruct (SL1 SP) as [H _]. specialize (H D). lia. }
  { unfold zlen. rewrite repeat_length. destruct WI as (? & ? & ?). lia. }
  destruct (be_lC51 (big_endian_cpu debug junk) (big_endian_cpu debug junk) even' m inp out work len d (repeat x00 (Z.to_nat len))) as (m2' & y2 & F2 & _ & B2 & _ & S2 & _); try assumption; try apply big_endian_ok.
  { right. exact N. }
  { intros SP D. specialize (SL2 D SP). lia. }
  { unfold zlen. rewrite repeat_length. destruct WI as (? & ? & ?). lia. }
  rewrite E1 in F1. injection F1 as <-. rewrite E2 in F2. injection F2 as <-.
  rewrite S1, S2, N, LY. f_equal.
  apply (blockwise_functional 8 (bc1_normal (d_norm d)) (slice m inp len)); try assumption; try lia.
  - destruct WI as (? & ? & ?). rewrite zlen_slice by lia. exact M.
  - intros b b' b'' _. apply bc1_functional.
Qed.

Lemma be_norm_odd : forall (debug : bool) (junk : byte) (m : list byte) (inp out work len : Z) (d : details),
  len mod 8 = 0 -> within m inp len -> within m out len -> within m work (len / 2) ->
  inp + len <= out \/ out + len <= inp -> inp + len <= work \/ work + len / 2 <= inp -> work + len / 2 <= out \/ out + len <= work ->
  0 < len -> d_decorr d <> VNone ->
  exists why, be_transform_bc1_with_normalize_blocks (big_endian_cpu debug junk) false inp out work len d m = Ub why.
Proof.
  intros debug junk m inp out work len d M WI WO WW A1 A2 A3 P N.
  apply (be_lC51_odd (big_endian_cpu debug junk)); try assumption; try apply big_endian_ok.
  intros _ _. lia.
Qed.

Lemma be_norm_search : forall (St Er : Type) (debug : bool) (junk : byte) (v : env) (e : estimator St Er) (all : bool) (fresh : Z -> byte) (even : bool)
    (m : list byte) (inp out len : Z) (st : St), len mod 8 = 0 ->
  within m inp len -> within m out len -> inp + len <= out \/ out + len <= inp ->
  (normalisable (slice m inp len) -> even = true) ->
  exists r m' st', be_transform_bc1_auto_with_normalization (big_endian_cpu debug junk) v e all fresh even inp out len m st = Ok (r, m', st') /\
    only_changes [(out, len)] m m' /\
    match r with
    | ROk d => candidate all (d_decorr d) /\ exists y, blockwise 8 (bc1_normal (d_norm d)) (slice m inp len) y /\
        blockwise 8 (fun b b' => picture bc1_pixel b' = picture bc1_pixel b) (slice m inp len) y /\
        slice m' out len = be_bc1_layout (d_decorr d) (d_split d) y
    | RErr AllocateError => exists n, alloc_ok v n = false
    | RErr (SizeEstimationError e1) => (exists st1 st2, max_compressed_size e st1 (len / 2) = (RErr e1, st2)) \/
        (exists st1 d n st2, estimate_compressed_size e st1 d n = (RErr e1, st2))
    end.
Proof.
  intros St Er debug junk v e all fresh even m inp out len st M WI WO A EV.
  apply (be_lC52_total St Er (big_endian_cpu debug junk)); try assumption; try apply big_endian_ok.
  intros N. split; [exact (EV N)|]. intros _. destruct N as (k & K0 & K1 & _). destruct WI as (? & ? & ?). rewrite zlen_slice in K1 by lia. lia.
Qed.

Lemma be_norm_best : forall (Er : Type) (debug : bool) (junk : byte) (v : env) (mx : Z -> result Z Er) (size : list byte -> Z -> result Z Er)
    (all : bool) (fresh : Z -> byte) (even : bool) (m : list byte) (inp out len : Z) (d : details) (m' : list byte), len mod 8 = 0 ->
  within m inp len -> within m out len -> inp + len <= out \/ out + len <= inp -> normalisable (slice m inp len) ->
  be_transform_bc1_auto_with_normalization (big_endian_cpu debug junk) v (pure mx size) all fresh even inp out len m tt = Ok (ROk d, m', tt) ->
  exists scratch, mx (len / 2) = ROk scratch /\
  forall d' y' z', candidate all (d_decorr d') -> blockwise 8 (measured (d_norm d')) (slice m inp len) y' ->
    total_size (fun b => size b scratch) (be_bc1_shown y' (untransform_settings d')) = ROk z' -> z' < usize_max v ->
    exists y z, blockwise 8 (measured (d_norm d)) (slice m inp len) y /\
      total_size (fun b => size b scratch) (be_bc1_shown y (untransform_settings d)) = ROk z /\ z <= z'.
Proof.
  intros Er debug junk v mx size all fresh even m inp out len d m' M WI WO A N RUN.
  apply (be_lC52_best Er (big_endian_cpu debug junk) v mx size all fresh even m inp out len d m'); try assumption; try apply big_endian_ok.
  intros _. destruct N as (k & K0 & K1 & _). destruct WI as (? & ? & ?). rewrite zlen_slice in K1 by lia. lia.
Qed.

Lemma be_norm_plain : forall (Er : Type) (debug : bool) (junk : byte) (v : env) (mx : Z -> result Z Er) (size : list byte -> Z -> result Z Er)
    (all : bool) (fresh : Z -> byte) (even : bool) (m : list byte) (inp out len : Z) r y, len mod 8 = 0 ->
  within m inp len -> within m out len -> inp + len <= out \/ out + len <= inp ->
  ~ normalisable (slice m inp len) -> alloc_ok v len = true ->
  be_transform_bc1_auto (big_endian_cpu debug junk) v (pure mx size) all (slice m inp len) (slice m out len) tt = Ok (r, y, tt) ->
  match r with
  | ROk s => exists m', be_transform_bc1_auto_with_normalization (big_endian_cpu debug junk) v (pure mx size) all fresh even inp out len m tt = Ok (ROk (details_of_settings s), m', tt) /\ slice m' out len = y
  | RErr (DetermineBestTransform err) => exists m', be_transform_bc1_auto_with_normalization (big_endian_cpu debug junk) v (pure mx size) all fresh even inp out len m tt = Ok (RErr err, m', tt)
  | RErr _ => False
  end.
Proof.
  intros Er debug junk v mx size all fresh even m inp out len r y M WI WO A N AL RUN.
  apply (be_lC52_plain Er (big_endian_cpu debug junk) v mx size all fresh even m inp out len r y); try assumption; apply big_endian_ok.
Qed.
