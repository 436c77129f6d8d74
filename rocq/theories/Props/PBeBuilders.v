(** C74: the builders, and searches with estimators that may answer the same
    question differently every time, on a big-endian machine. *)
From Verif Require Import Base.Bytes Base.Res Model.Color565 Model.Kernel Model.Transform Model.Auto Model.Builders Model.BigEndian Model.BeTransform Model.BeFiles
  Spec.YCoCg Spec.Layout Spec.BigEndian Spec.Estimator Spec.Answers Spec.BeFiles Proofs.BigEndianFacts Proofs.BeBuilders Props.Cases Props.CasesAuto Props.CasesZstd.
Open Scope list_scope.
Open Scope Z_scope.

(** What a manual builder writes, a builder with the same settings restores on
    every big-endian machine. *)
Theorem C74_manual_builder : forall (k : codec) (d1 d2 : bool) (j1 j2 : byte) (b : manual_builder) (x out1 out2 : list byte),
  zlen x mod codec_block k = 0 -> zlen x <= zlen out1 -> zlen x <= zlen out2 ->
  exists y z, be_manual_transform k (big_endian_cpu d1 j1) b x out1 = Ok (ROk tt, y) /\
    be_manual_untransform k (big_endian_cpu d2 j2) b (firstn (List.length x) y) out2 = Ok (ROk tt, z) /\ firstn (List.length x) z = x.
Proof. exact be_manual_round_trip. Qed.
Print Assumptions C74_manual_builder.
Example C74_manual_builder_met : let x := texture 32 in zlen x mod codec_block CBc2 = 0 /\ zlen x <= zlen (x ++ [x00]) /\
  (match be_manual_transform CBc2 (big_endian_cpu true x5a) (ManualBuilder (Settings V3 true)) x x with Ok (ROk _, y) => y <> x | _ => False end).
Proof. cbv zeta. split; [reflexivity|]. split; [discriminate|]. vm_compute. discriminate. Qed.

(** What an automatic builder writes, the builder it returns restores. *)
Theorem C74_auto_builder : forall (St Er : Type) (k : codec) (d1 d2 : bool) (j1 j2 : byte) (v : env) (b : auto_builder St Er) (x out out2 : list byte) (st st' : St) m y,
  be_auto_transform k (big_endian_cpu d1 j1) v b x out st = Ok (ROk m, y, st') -> zlen x <= zlen out2 ->
  candidate (ab_use_all b) (decorrelation_mode (mb_settings m)) /\
  exists z, be_manual_untransform k (big_endian_cpu d2 j2) m (firstn (List.length x) y) out2 = Ok (ROk tt, z) /\ firstn (List.length x) z = x.
Proof. exact be_auto_round_trip. Qed.
Print Assumptions C74_auto_builder.
Example C74_auto_builder_met : let x := texture 32 in zlen x <= zlen (x ++ [x00]) /\
  (match be_auto_transform CBc1 (big_endian_cpu true x5a) roomy (AutoBuilder fickle true) x x 3 with Ok (ROk m, y, st') => y <> x /\ st' = 12 | _ => False end).
Proof. cbv zeta. split; [discriminate|]. vm_compute. split; [discriminate|reflexivity]. Qed.

(** Bad lengths are reported with the lengths in question; the output and the
    estimator are not touched. *)
Theorem C74_builder_errors : forall (St Er : Type) (k : codec) (c : cfg) (v : env) (m : manual_builder) (b : auto_builder St Er) (x out : list byte) (st : St),
  (zlen x mod codec_block k <> 0 ->
    be_manual_transform k c m x out = Ok (RErr (BcInvalidLength (zlen x)), out) /\
    be_manual_untransform k c m x out = Ok (RErr (BcInvalidLength (zlen x)), out) /\
    be_auto_transform k c v b x out st = Ok (RErr (BcInvalidLength (zlen x)), out, st)) /\
  (zlen x mod codec_block k = 0 -> zlen out < zlen x ->
    be_manual_transform k c m x out = Ok (RErr (BcOutputBufferTooSmall (zlen x) (zlen out)), out) /\
    be_manual_untransform k c m x out = Ok (RErr (BcOutputBufferTooSmall (zlen x) (zlen out)), out) /\
    be_auto_transform k c v b x out st = Ok (RErr (BcOutputBufferTooSmall (zlen x) (zlen out)), out, st)).
Proof. exact be_builder_errors. Qed.
Print Assumptions C74_builder_errors.
Example C74_builder_errors_met : zlen (texture 8) mod codec_block CBc2 <> 0 /\ zlen (texture 8) mod codec_block CBc1 = 0 /\ zlen (texture 7) < zlen (texture 8).
Proof. vm_compute. split; [discriminate|]. split; reflexivity. Qed.

(** A search that succeeds asks for the scratch length once, then asks about every
    candidate in the documented order, and chooses the first candidate for which
    the answers it was given add up to the least. *)
Theorem C74_bc1_answers : forall (St Er : Type) (d : bool) (j : byte) (v : env) (e : estimator St Er) (all : bool) (x out : list byte) (st : St) s y st' log,
  (forall st d n z st', estimate_compressed_size e st d n = (ROk z, st') -> z < usize_max v) ->
  be_transform_bc1_auto (big_endian_cpu d j) v (logging e) all x out (st, []) = Ok (ROk s, y, (st', log)) ->
  be_transform_bc1_auto (big_endian_cpu d j) v e all x out st = Ok (ROk s, y, st') /\
  exists scratch rounds, log = AskedMax (zlen x / 2) (ROk scratch) :: flat_map (round_calls (be_bc1_shown x) scratch) rounds /\
    map fst rounds = tried all /\ Forall (fun r => List.length (snd r) = List.length (be_bc1_shown x (fst r))) rounds /\ first_smallest rounds s.
Proof. exact (@be_bc1_answers). Qed.
Print Assumptions C74_bc1_answers.
Example C74_bc1_answers_met : let x := texture 16 in
  (forall st d n z st', estimate_compressed_size fickle st d n = (ROk z, st') -> z < usize_max roomy) /\
  (match be_transform_bc1_auto (big_endian_cpu true x5a) roomy (logging fickle) true x x (0, []) with Ok (ROk s, _, (st', log)) => st' = 9 /\ s = Settings V1 false | _ => False end).
Proof. cbv zeta. split; [exact fickle_fits_once|]. vm_compute. repeat split. Qed.
Theorem C74_bc2_answers : forall (St Er : Type) (d : bool) (j : byte) (v : env) (e : estimator St Er) (all : bool) (x out : list byte) (st : St) s y st' log,
  (forall st d n z st', estimate_compressed_size e st d n = (ROk z, st') -> z < usize_max v) ->
  be_transform_bc2_auto (big_endian_cpu d j) v (logging e) all x out (st, []) = Ok (ROk s, y, (st', log)) ->
  be_transform_bc2_auto (big_endian_cpu d j) v e all x out st = Ok (ROk s, y, st') /\
  exists scratch rounds, log = AskedMax (zlen x / 4) (ROk scratch) :: flat_map (round_calls (be_bc2_shown x) scratch) rounds /\
    map fst rounds = tried all /\ Forall (fun r => List.length (snd r) = List.length (be_bc2_shown x (fst r))) rounds /\ first_smallest rounds s.
Proof. exact (@be_bc2_answers). Qed.
Print Assumptions C74_bc2_answers.
Example C74_bc2_answers_met : let x := texture 32 in
  (forall st d n z st', estimate_compressed_size fickle st d n = (ROk z, st') -> z < usize_max roomy) /\
  (match be_transform_bc2_auto (big_endian_cpu true x5a) roomy (logging fickle) false x x (4, []) with Ok (ROk s, _, (st', log)) => st' = 9 /\ s = Settings V1 false | _ => False end).
Proof. cbv zeta. split; [exact fickle_fits_once|]. vm_compute. repeat split. Qed.
Theorem C74_bc3_answers : forall (St Er : Type) (d : bool) (j : byte) (v : env) (e : estimator St Er) (all : bool) (x out : list byte) (st : St) s y st' log,
  (forall st d n z st', estimate_compressed_size e st d n = (ROk z, st') -> 2 * z < usize_max v) ->
  be_transform_bc3_auto (big_endian_cpu d j) v (logging e) all x out (st, []) = Ok (ROk s, y, (st', log)) ->
  be_transform_bc3_auto (big_endian_cpu d j) v e all x out st = Ok (ROk s, y, st') /\
  exists scratch rounds, log = AskedMax (zlen x / 4) (ROk scratch) :: flat_map (round_calls (be_bc3_shown x) scratch) rounds /\
    map fst rounds = tried3 all /\ Forall (fun r => List.length (snd r) = List.length (be_bc3_shown x (fst r))) rounds /\ first_smallest rounds s.
Proof. exact (@be_bc3_answers). Qed.
Print Assumptions C74_bc3_answers.
Example C74_bc3_answers_met : let x := texture 16 in
  (forall st d n z st', estimate_compressed_size fickle st d n = (ROk z, st') -> 2 * z < usize_max roomy) /\
  (match be_transform_bc3_auto (big_endian_cpu true x5a) roomy (logging fickle) false x x (0, []) with Ok (ROk s, _, (st', log)) => st' = 17 /\ s = Settings3 VNone false false | _ => False end).
Proof. cbv zeta. split; [exact fickle_fits|]. vm_compute. repeat split. Qed.
