(** C16 to C18 for estimators that may answer the same question differently every
    time and for estimators in C, and C53: what the searches with Zstandard choose. *)
From Verif Require Import Base.Bytes Base.Res Model.Color565 Model.Kernel Model.Transform Model.Auto Model.Builders Model.CApi Model.Zstd
  Spec.Estimator Spec.Files Spec.CApi Spec.Zstd Spec.Answers Spec.ZstdSizes Spec.CChoice Proofs.AutoAnswers Proofs.ZstdSmallest Proofs.CChoice Props.Cases Props.CasesAuto Props.CasesZstd.
Open Scope list_scope.
Open Scope Z_scope.

(** C16. A search that succeeds asks for the scratch length once, then asks about
    every candidate in the documented order, and chooses the first candidate for
    which the answers it was given add up to the least. *)
Theorem C16_bc1_answers : forall (St Er : Type) (c : cfg) (v : env) (e : estimator St Er) (all : bool) (x out : list byte) (st : St) s y st' log,
  cpu_ok c -> (c_debug c = true -> x <> []) ->
  (forall st d n z st', estimate_compressed_size e st d n = (ROk z, st') -> z < usize_max v) ->
  transform_bc1_auto c v (logging e) all x out (st, []) = Ok (ROk s, y, (st', log)) ->
  transform_bc1_auto c v e all x out st = Ok (ROk s, y, st') /\
  exists scratch rounds, log = AskedMax (zlen x / 2) (ROk scratch) :: flat_map (round_calls (bc1_shown x) scratch) rounds /\
    map fst rounds = tried all /\ Forall (fun r => List.length (snd r) = List.length (bc1_shown x (fst r))) rounds /\ first_smallest rounds s.
Proof. exact (@lC16_answers). Qed.
Print Assumptions C16_bc1_answers.
Example C16_bc1_answers_met : let x := Cases.texture 16 in let run := transform_bc1_auto debug_cpu roomy (logging fickle) true x x (0, []) in
  let s := chosen default_settings run in
  cpu_ok debug_cpu /\ (c_debug debug_cpu = true -> x <> []) /\
  (forall st d n z st', estimate_compressed_size fickle st d n = (ROk z, st') -> z < usize_max roomy) /\
  (match run with Ok (ROk s', _, (st', log)) => s' = s /\ st' = 9 /\ List.length log = 9%nat | _ => False end) /\ s = Settings V1 false.
Proof.
  cbv zeta. split; [exact debug_ok|]. split; [discriminate|]. split; [exact fickle_fits_once|]. vm_compute. repeat split.
Qed.

Theorem C17_bc2_answers : forall (St Er : Type) (c : cfg) (v : env) (e : estimator St Er) (all : bool) (x out : list byte) (st : St) s y st' log,
  cpu_ok c -> (c_avx512bw c = true -> c_avx512vl c = true) ->
  (forall st d n z st', estimate_compressed_size e st d n = (ROk z, st') -> z < usize_max v) ->
  transform_bc2_auto c v (logging e) all x out (st, []) = Ok (ROk s, y, (st', log)) ->
  transform_bc2_auto c v e all x out st = Ok (ROk s, y, st') /\
  exists scratch rounds, log = AskedMax (zlen x / 4) (ROk scratch) :: flat_map (round_calls (bc2_shown x) scratch) rounds /\
    map fst rounds = tried all /\ Forall (fun r => List.length (snd r) = List.length (bc2_shown x (fst r))) rounds /\ first_smallest rounds s.
Proof. exact (@lC17_answers). Qed.
Print Assumptions C17_bc2_answers.
Example C17_bc2_answers_met : let x := Cases.texture 32 in let run := transform_bc2_auto debug_cpu roomy (logging fickle) false x x (4, []) in
  let s := chosen default_settings run in
  cpu_ok debug_cpu /\ (c_avx512bw debug_cpu = true -> c_avx512vl debug_cpu = true) /\
  (forall st d n z st', estimate_compressed_size fickle st d n = (ROk z, st') -> z < usize_max roomy) /\
  (match run with Ok (ROk s', _, (st', log)) => s' = s /\ st' = 9 /\ List.length log = 5%nat | _ => False end) /\ s = Settings V1 false.
Proof.
  cbv zeta. split; [exact debug_ok|]. split; [reflexivity|]. split; [exact fickle_fits_once|]. vm_compute. repeat split.
Qed.

Theorem C18_bc3_answers : forall (St Er : Type) (c : cfg) (v : env) (e : estimator St Er) (all : bool) (x out : list byte) (st : St) s y st' log,
  cpu_ok c -> (c_debug c = true -> x <> []) ->
  (forall st d n z st', estimate_compressed_size e st d n = (ROk z, st') -> 2 * z < usize_max v) ->
  transform_bc3_auto c v (logging e) all x out (st, []) = Ok (ROk s, y, (st', log)) ->
  transform_bc3_auto c v e all x out st = Ok (ROk s, y, st') /\
  exists scratch rounds, log = AskedMax (zlen x / 4) (ROk scratch) :: flat_map (round_calls (bc3_shown x) scratch) rounds /\
    map fst rounds = tried3 all /\ Forall (fun r => List.length (snd r) = List.length (bc3_shown x (fst r))) rounds /\ first_smallest rounds s.
Proof. exact (@lC18_answers). Qed.
Print Assumptions C18_bc3_answers.
Example C18_bc3_answers_met : let x := Cases.texture 16 in let run := transform_bc3_auto debug_cpu roomy (logging fickle) false x x (0, []) in
  let s := chosen default_settings3 run in
  cpu_ok debug_cpu /\ (c_debug debug_cpu = true -> x <> []) /\
  (forall st d n z st', estimate_compressed_size fickle st d n = (ROk z, st') -> 2 * z < usize_max roomy) /\
  (match run with Ok (ROk s', _, (st', log)) => s' = s /\ st' = 17 /\ List.length log = 17%nat | _ => False end) /\ s = Settings3 VNone false false.
Proof.
  cbv zeta. split; [exact debug_ok|]. split; [discriminate|]. split; [exact fickle_fits|]. vm_compute. repeat split.
Qed.

(** C53. With a library that keeps its promise and for which the compressed size
    depends on the level and the data, the searches choose a candidate whose shown
    sections this library compresses best at this level. *)
Theorem C53_bc1_smallest : forall (L : Type) (lib : zstd_lib L) (v : env) (size : Z -> list byte -> Z) (lv : Z),
  keeps_promise lib -> compresses_to lib v size ->
  forall (c : cfg) (all : bool) (x out : list byte) (st : L) s y st', cpu_ok c -> (c_debug c = true -> x <> []) ->
  transform_bc1_auto c v (zstd lib lv) all x out st = Ok (ROk s, y, st') ->
  forall s', candidate all (decorrelation_mode s') -> compressed_sum (size lv) (bc1_shown x s) <= compressed_sum (size lv) (bc1_shown x s').
Proof. exact (@bc1_smallest). Qed.
Print Assumptions C53_bc1_smallest.
Theorem C53_bc2_smallest : forall (L : Type) (lib : zstd_lib L) (v : env) (size : Z -> list byte -> Z) (lv : Z),
  keeps_promise lib -> compresses_to lib v size ->
  forall (c : cfg) (all : bool) (x out : list byte) (st : L) s y st', cpu_ok c -> (c_avx512bw c = true -> c_avx512vl c = true) ->
  transform_bc2_auto c v (zstd lib lv) all x out st = Ok (ROk s, y, st') ->
  forall s', candidate all (decorrelation_mode s') -> compressed_sum (size lv) (bc2_shown x s) <= compressed_sum (size lv) (bc2_shown x s').
Proof. exact (@bc2_smallest). Qed.
Print Assumptions C53_bc2_smallest.
Theorem C53_bc3_smallest : forall (L : Type) (lib : zstd_lib L) (v : env) (size : Z -> list byte -> Z) (lv : Z),
  keeps_promise lib -> compresses_to lib v size ->
  forall (c : cfg) (all : bool) (x out : list byte) (st : L) s y st', cpu_ok c -> (c_debug c = true -> x <> []) ->
  transform_bc3_auto c v (zstd lib lv) all x out st = Ok (ROk s, y, st') ->
  forall s', candidate all (decorrelation_mode3 s') -> compressed_sum (size lv) (bc3_shown x s) <= compressed_sum (size lv) (bc3_shown x s').
Proof. exact (@bc3_smallest). Qed.
Print Assumptions C53_bc3_smallest.

(** A library that copies at every level but the first. The levels disagree about
    the candidates of this texture. *)
Definition striped : list byte := map (fun i => lo8 (i / 3 * 37)) (zseq 0 32).
Example C53_smallest_met : let run1 := transform_bc1_auto debug_cpu roomy (zstd levelled 1) true striped striped 0 in
  let run2 := transform_bc2_auto debug_cpu roomy (zstd levelled 1) true striped striped 0 in
  let run3 := transform_bc3_auto debug_cpu roomy (zstd levelled 1) true striped striped 0 in
  keeps_promise levelled /\ compresses_to levelled roomy level_size /\ cpu_ok debug_cpu /\ striped <> [] /\
  (match run1 with Ok (ROk s, _, _) => (compressed_sum (level_size 1) (bc1_shown striped s) <? compressed_sum (level_size 1) (bc1_shown striped default_settings)) = true | _ => False end) /\
  (match run2 with Ok (ROk _, _, _) => True | _ => False end) /\ (match run3 with Ok (ROk _, _, _) => True | _ => False end).
Proof.
  cbv zeta. split; [exact levelled_promise|]. split; [apply levelled_sizes; discriminate|]. split; [exact debug_ok|]. split; [discriminate|].
  split; [vm_compute; reflexivity|]. split; vm_compute; exact Logic.I.
Qed.
Example C53_bc3_search_met : keeps_promise levelled /\ 0 <= usize_max roomy /\ cpu_ok debug_cpu /\ zlen striped mod 16 = 0 /\ can_allocate levelled roomy (zlen striped / 4) /\
  (forall k n d s, 2 * fst (z_compress2 levelled k n d s) <= usize_max roomy \/ z_is_error levelled (fst (z_compress2 levelled k n d s)) = true).
Proof.
  split; [exact levelled_promise|]. split; [discriminate|]. split; [exact debug_ok|]. split; [vm_compute; reflexivity|]. split; [right; vm_compute; reflexivity|]. exact levelled_fits.
Qed.

(** C16 and C17 through the C functions: if the callback for sizes succeeds, the
    settings chosen have the smallest total of the sizes it stores (0 where it
    stores none). The core crates' functions store these settings. *)
Theorem C16_c_core_choice : forall (St : Type) (k : codec) (c : cfg) (v : env) (e : c_estimator St) (all : bool) (i : list byte) (n : Z) (o : list byte) (m : Z)
    (old : settings) (st : St) (stored : list byte -> option Z) o1 s st1,
  supported c -> (c_debug c = true -> n <> 0) -> valid_for i n -> valid_for o m ->
  reports e stored -> (forall d, size_found (stored d) < usize_max v) ->
  core_transform_auto_c k c v (Some i) n (Some o) m (Some e) all (Some old) st = Ok (CoreSuccess, Some o1, Some s, st1) ->
  forall s', candidate all (decorrelation_mode s') ->
    compressed_sum (fun d => size_found (stored d)) (codec_shown k (firstn (Z.to_nat n) i) s) <=
    compressed_sum (fun d => size_found (stored d)) (codec_shown k (firstn (Z.to_nat n) i) s').
Proof. exact core_c_choice. Qed.
Print Assumptions C16_c_core_choice.

(** The API crates' functions make a builder with them. *)
Theorem C16_c_auto_choice : forall (St : Type) (k : codec) (c : cfg) (v : env) (h : heap St) (i : list byte) (n : Z) (o : list byte) (m : Z) (b : nat)
    (ab : c_auto_builder St) (cell : handle) (st : St) (stored : list byte -> option Z) o1 cell1 h1 st1,
  supported c -> (c_debug c = true -> n <> 0) -> valid_for i n -> valid_for o m -> lookup (autos h) b = Ok ab ->
  reports (ca_estimator ab) stored -> (forall d, size_found (stored d) < usize_max v) ->
  auto_transform_c k c v (Some b) (Some i) n (Some o) m (Some cell) h st = Ok (Success, Some o1, Some cell1, h1, st1) ->
  exists new s, cell1 = Some new /\ lookup (manuals h1) new = Ok (ManualBuilder s) /\
    forall s', candidate (ca_use_all ab) (decorrelation_mode s') ->
    compressed_sum (fun d => size_found (stored d)) (codec_shown k (firstn (Z.to_nat n) i) s) <=
    compressed_sum (fun d => size_found (stored d)) (codec_shown k (firstn (Z.to_nat n) i) s').
Proof. exact auto_c_choice. Qed.
Print Assumptions C16_c_auto_choice.

(** Callbacks that count their calls and store 9, or nothing if the data starts
    with an even byte; sixteen of twenty bytes. *)
Definition stores_nine_or_nothing (d : list byte) : option Z := match d with b :: _ => if b2z b mod 2 =? 0 then None else Some 9 | [] => Some 9 end.
Definition sometimes_silent : c_estimator Z := CEstimator (fun st n => (0, Some n, st + 1)) (fun st d _ => (0, stores_nine_or_nothing d, st + 1)).
Lemma silent_reports : reports sometimes_silent stores_nine_or_nothing.
Proof. intros st d scratch. exists (st + 1). reflexivity. Qed.
Lemma silent_fits : forall d, size_found (stores_nine_or_nothing d) < usize_max roomy.
Proof. intros [|b d]; [reflexivity|]. cbn [stores_nine_or_nothing]. destruct (_ =? 0); reflexivity. Qed.
Example C16_c_choice_met : let i := Cases.texture 20 in let o := repeat xff 18 in let old := default_settings in
  let ab := CAutoBuilder sometimes_silent true in let h := Heap [Some manual_new] [Some ab] in
  supported debug_cpu /\ (c_debug debug_cpu = true -> 16 <> 0) /\ valid_for i 16 /\ valid_for o 17 /\ lookup (autos h) 0 = Ok ab /\
  reports sometimes_silent stores_nine_or_nothing /\ (forall d, size_found (stores_nine_or_nothing d) < usize_max roomy) /\
  (match core_transform_auto_c CBc1 debug_cpu roomy (Some i) 16 (Some o) 17 (Some sometimes_silent) true (Some old) 0 with
   | Ok (CoreSuccess, Some _, Some s, st) => st = 9 /\ compressed_sum (fun d => size_found (stores_nine_or_nothing d)) (codec_shown CBc1 (firstn 16 i) s) = 0 /\
       compressed_sum (fun d => size_found (stores_nine_or_nothing d)) (codec_shown CBc1 (firstn 16 i) (Settings VNone false)) = 9
   | _ => False end) /\
  (match auto_transform_c CBc1 debug_cpu roomy (Some 0%nat) (Some i) 16 (Some o) 17 (Some None) h 0 with
   | Ok (Success, Some _, Some (Some n), _, st) => st = 9 /\ n = 1%nat
   | _ => False end).
Proof.
  cbv zeta. split; [exact debug_supported|]. split; [discriminate|]. split; [vm_compute; split; discriminate|]. split; [vm_compute; split; discriminate|].
  split; [reflexivity|]. split; [exact silent_reports|]. split; [exact silent_fits|]. split; vm_compute; repeat split.
Qed.
