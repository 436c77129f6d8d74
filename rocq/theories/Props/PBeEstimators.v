(** C74: searches with the project's own estimators on a big-endian machine. *)
From Verif Require Import Base.Bytes Base.Res Model.Color565 Model.Kernel Model.Transform Model.Auto Model.Ltu Model.Zstd Model.BigEndian Model.BeTransform Model.BeFiles
  Spec.YCoCg Spec.Layout Spec.BigEndian Spec.Estimator Spec.Ltu Spec.Zstd Spec.Answers Spec.ZstdSizes Spec.BeFiles
  Proofs.BigEndianFacts Proofs.BeEstimators Props.Cases Props.CasesAuto Props.CasesZstd Props.PLtu.
Open Scope list_scope.
Open Scope Z_scope.

(** With the LTU estimator no search fails (for BC3: if twice the texture's
    length is a [usize]), and the choice has the smallest estimate. *)
Theorem C74_bc1_ltu : forall (matches : list byte -> Z) (debug : bool) (junk : byte) (v : env) (all : bool) (x out : list byte),
  (forall d, 0 <= matches d) -> zlen x mod 8 = 0 -> zlen x <= zlen out -> zlen x <= usize_max v ->
  let c := big_endian_cpu debug junk in
  exists s y, be_transform_bc1_auto c v (ltu matches) all x out tt = Ok (ROk s, y, tt) /\ be_transform_bc1 c s x out = Ok (ROk tt, y) /\
    candidate all (decorrelation_mode s) /\
    forall s', candidate all (decorrelation_mode s') -> ltu_total matches (be_bc1_shown x s) <= ltu_total matches (be_bc1_shown x s').
Proof. intros matches debug junk v all x out M. exact (be_lC45_bc1_auto matches (big_endian_cpu debug junk) v all x out M (big_endian_ok debug junk)). Qed.
Print Assumptions C74_bc1_ltu.
Theorem C74_bc2_ltu : forall (matches : list byte -> Z) (debug : bool) (junk : byte) (v : env) (all : bool) (x out : list byte),
  (forall d, 0 <= matches d) -> zlen x mod 16 = 0 -> zlen x <= zlen out -> zlen x <= usize_max v ->
  let c := big_endian_cpu debug junk in
  exists s y, be_transform_bc2_auto c v (ltu matches) all x out tt = Ok (ROk s, y, tt) /\ be_transform_bc2 c s x out = Ok (ROk tt, y) /\
    candidate all (decorrelation_mode s) /\
    forall s', candidate all (decorrelation_mode s') -> ltu_total matches (be_bc2_shown x s) <= ltu_total matches (be_bc2_shown x s').
Proof. intros matches debug junk v all x out M. exact (be_lC45_bc2_auto matches (big_endian_cpu debug junk) v all x out M (big_endian_ok debug junk)). Qed.
Print Assumptions C74_bc2_ltu.
Theorem C74_bc3_ltu : forall (matches : list byte -> Z) (debug : bool) (junk : byte) (v : env) (all : bool) (x out : list byte),
  (forall d, 0 <= matches d) -> zlen x mod 16 = 0 -> zlen x <= zlen out -> 2 * zlen x <= usize_max v ->
  let c := big_endian_cpu debug junk in
  exists s y, be_transform_bc3_auto c v (ltu matches) all x out tt = Ok (ROk s, y, tt) /\ be_transform_bc3 c s x out = Ok (ROk tt, y) /\
    candidate all (decorrelation_mode3 s) /\
    forall s', candidate all (decorrelation_mode3 s') -> ltu_total matches (be_bc3_shown x s) <= ltu_total matches (be_bc3_shown x s').
Proof. intros matches debug junk v all x out M. exact (be_lC45_bc3_auto matches (big_endian_cpu debug junk) v all x out M (big_endian_ok debug junk)). Qed.
Print Assumptions C74_bc3_ltu.
Example C74_ltu_met : let x := texture 16 in (forall d, 0 <= repeats d) /\ zlen x mod 16 = 0 /\ zlen x mod 8 = 0 /\ 2 * zlen x <= usize_max roomy /\
  (match be_transform_bc1_auto (big_endian_cpu true x5a) roomy (ltu repeats) true x x tt with Ok (ROk _, _, _) => True | _ => False end) /\
  (match be_transform_bc3_auto (big_endian_cpu true x5a) roomy (ltu repeats) true x x tt with Ok (ROk _, _, _) => True | _ => False end).
Proof.
  cbv zeta. split; [exact repeats_nonneg|]. split; [vm_compute; reflexivity|]. split; [vm_compute; reflexivity|]. split; [vm_compute; discriminate|]. split; vm_compute; exact I.
Qed.

(** With the Zstandard estimator no search fails if the library keeps its promise
    and memory can be allocated, *)
Theorem C74_bc1_zstd : forall (L : Type) (lib : zstd_lib L) (lv : Z) (debug : bool) (junk : byte) (v : env) (all : bool) (x out : list byte) (st : L),
  keeps_promise lib -> zlen x mod 8 = 0 -> zlen x <= zlen out -> can_allocate lib v (zlen x / 2) ->
  exists s y st', be_transform_bc1_auto (big_endian_cpu debug junk) v (zstd lib lv) all x out st = Ok (ROk s, y, st').
Proof. intros L lib lv debug junk v all x out st K. exact (be_zstd_bc1_auto L lib lv (big_endian_cpu debug junk) v all x out st K (big_endian_ok debug junk)). Qed.
Print Assumptions C74_bc1_zstd.
Theorem C74_bc2_zstd : forall (L : Type) (lib : zstd_lib L) (lv : Z) (debug : bool) (junk : byte) (v : env) (all : bool) (x out : list byte) (st : L),
  keeps_promise lib -> zlen x mod 16 = 0 -> zlen x <= zlen out -> can_allocate lib v (zlen x / 4) ->
  exists s y st', be_transform_bc2_auto (big_endian_cpu debug junk) v (zstd lib lv) all x out st = Ok (ROk s, y, st').
Proof. intros L lib lv debug junk v all x out st K. exact (be_zstd_bc2_auto L lib lv (big_endian_cpu debug junk) v all x out st K (big_endian_ok debug junk)). Qed.
Print Assumptions C74_bc2_zstd.
Theorem C74_bc3_zstd : forall (L : Type) (lib : zstd_lib L) (lv : Z) (debug : bool) (junk : byte) (v : env) (all : bool) (x out : list byte) (st : L),
  keeps_promise lib -> (forall k n d s, 2 * fst (z_compress2 lib k n d s) <= usize_max v \/ z_is_error lib (fst (z_compress2 lib k n d s)) = true) -> 0 <= usize_max v ->
  zlen x mod 16 = 0 -> zlen x <= zlen out -> can_allocate lib v (zlen x / 4) ->
  exists s y st', be_transform_bc3_auto (big_endian_cpu debug junk) v (zstd lib lv) all x out st = Ok (ROk s, y, st').
Proof. intros L lib lv debug junk v all x out st K B U. exact (be_zstd_bc3_auto L lib lv (big_endian_cpu debug junk) v all x out st K B U (big_endian_ok debug junk)). Qed.
Print Assumptions C74_bc3_zstd.
(** and if the compressed size depends on level and data alone, the choice has
    the sections that compress best. *)
Theorem C74_bc1_zstd_smallest : forall (L : Type) (lib : zstd_lib L) (v : env) (size : Z -> list byte -> Z) (lv : Z),
  keeps_promise lib -> compresses_to lib v size ->
  forall (debug : bool) (junk : byte) (all : bool) (x out : list byte) (st : L) s y st',
  be_transform_bc1_auto (big_endian_cpu debug junk) v (zstd lib lv) all x out st = Ok (ROk s, y, st') ->
  forall s', candidate all (decorrelation_mode s') -> compressed_sum (size lv) (be_bc1_shown x s) <= compressed_sum (size lv) (be_bc1_shown x s').
Proof. intros L lib v size lv K C debug junk all x out st s y st'. exact (be_bc1_smallest lib v size lv K C (big_endian_cpu debug junk) all x out st s y st' (big_endian_ok debug junk)). Qed.
Print Assumptions C74_bc1_zstd_smallest.
Theorem C74_bc2_zstd_smallest : forall (L : Type) (lib : zstd_lib L) (v : env) (size : Z -> list byte -> Z) (lv : Z),
  keeps_promise lib -> compresses_to lib v size ->
  forall (debug : bool) (junk : byte) (all : bool) (x out : list byte) (st : L) s y st',
  be_transform_bc2_auto (big_endian_cpu debug junk) v (zstd lib lv) all x out st = Ok (ROk s, y, st') ->
  forall s', candidate all (decorrelation_mode s') -> compressed_sum (size lv) (be_bc2_shown x s) <= compressed_sum (size lv) (be_bc2_shown x s').
Proof. intros L lib v size lv K C debug junk all x out st s y st'. exact (be_bc2_smallest lib v size lv K C (big_endian_cpu debug junk) all x out st s y st' (big_endian_ok debug junk)). Qed.
Print Assumptions C74_bc2_zstd_smallest.
Theorem C74_bc3_zstd_smallest : forall (L : Type) (lib : zstd_lib L) (v : env) (size : Z -> list byte -> Z) (lv : Z),
  keeps_promise lib -> compresses_to lib v size ->
  forall (debug : bool) (junk : byte) (all : bool) (x out : list byte) (st : L) s y st',
  be_transform_bc3_auto (big_endian_cpu debug junk) v (zstd lib lv) all x out st = Ok (ROk s, y, st') ->
  forall s', candidate all (decorrelation_mode3 s') -> compressed_sum (size lv) (be_bc3_shown x s) <= compressed_sum (size lv) (be_bc3_shown x s').
Proof. intros L lib v size lv K C debug junk all x out st s y st'. exact (be_bc3_smallest lib v size lv K C (big_endian_cpu debug junk) all x out st s y st' (big_endian_ok debug junk)). Qed.
Print Assumptions C74_bc3_zstd_smallest.

(** Runs with a library that keeps its promise, at a level whose sizes differ. *)
Definition stripes : list byte := map (fun i => lo8 (i / 3 * 37)) (zseq 0 32).
Example C74_zstd_met : let be := big_endian_cpu true x5a in
  keeps_promise levelled /\ compresses_to levelled roomy level_size /\ can_allocate levelled roomy (zlen stripes / 2) /\ can_allocate levelled roomy (zlen stripes / 4) /\ zlen stripes = 32 /\
  (forall k n d s, 2 * fst (z_compress2 levelled k n d s) <= usize_max roomy \/ z_is_error levelled (fst (z_compress2 levelled k n d s)) = true) /\ 0 <= usize_max roomy /\
  (match be_transform_bc1_auto be roomy (zstd levelled 1) true stripes stripes 0 with
   | Ok (ROk s, _, _) => (compressed_sum (level_size 1) (be_bc1_shown stripes s) <? compressed_sum (level_size 1) (be_bc1_shown stripes default_settings)) = true
   | _ => False end) /\
  (match be_transform_bc2_auto be roomy (zstd levelled 1) true stripes stripes 0 with Ok (ROk _, _, _) => True | _ => False end) /\
  (match be_transform_bc3_auto be roomy (zstd levelled 1) true stripes stripes 0 with Ok (ROk _, _, _) => True | _ => False end).
Proof.
  cbv zeta. split; [exact levelled_promise|]. split; [apply levelled_sizes; discriminate|]. split; [right; vm_compute; reflexivity|]. split; [right; vm_compute; reflexivity|].
  split; [vm_compute; reflexivity|]. split; [exact levelled_fits|]. split; [discriminate|]. split; [vm_compute; reflexivity|]. split; vm_compute; exact I.
Qed.
