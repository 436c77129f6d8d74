(** Automatic choice of settings: C16-C21, C50. *)
From Verif Require Import Base.Bytes Base.Res Model.Color565 Model.Kernel Model.Transform Model.Auto Spec.YCoCg Spec.Layout Spec.Estimator.
From Verif Require Import Proofs.AutoTheorems Props.Cases Props.CasesAuto.

(** C16: with a deterministic estimator, the settings returned are a candidate whose estimate is smallest among all candidates, and the output is what the transform with these settings writes. *)
Theorem C16_bc1_auto_optimal : forall (Er : Type) (c : cfg) (v : env) (mx : Z -> result Z Er) (size : list byte -> Z -> result Z Er)
    (all : bool) (x out : list byte) (s : settings) (y : list byte),
  cpu_ok c -> (c_debug c = true -> x <> []) -> (forall d n z, size d n = ROk z -> 0 <= z /\ z <= usize_max v) ->
  transform_bc1_auto c v (pure mx size) all x out tt = Ok (ROk s, y, tt) ->
  candidate all (decorrelation_mode s) /\ transform_bc1 c s x out = Ok (ROk tt, y) /\
  exists scratch z, mx (zlen x / 2) = ROk scratch /\ total_size (fun d => size d scratch) (bc1_shown x s) = ROk z /\
    forall s', candidate all (decorrelation_mode s') -> exists z', total_size (fun d => size d scratch) (bc1_shown x s') = ROk z' /\ z <= z'.
Proof. exact lC16_bc1_auto_optimal. Qed.
Print Assumptions C16_bc1_auto_optimal.
(** two blocks, all modes, an estimator that adds up the bytes *)
Example C16_bc1_auto_optimal_met :
  let Er := unit in let c := debug_cpu in let v := roomy in let mx := twice in let size := byte_sum in let all := true in let x := texture 16 in let out := texture 16 in
  let s := chosen default_settings (transform_bc1_auto c v (pure mx size) all x out tt) in let y := left_by (transform_bc1_auto c v (pure mx size) all x out tt) in
  cpu_ok c /\ (c_debug c = true -> x <> []) /\ (forall d n z, size d n = ROk z -> 0 <= z /\ z <= usize_max v) /\ transform_bc1_auto c v (pure mx size) all x out tt = Ok
  (ROk s, y, tt) /\ s <> default_settings /\ y <> x.
Proof. met_auto. Qed.

(** a search that finds something better than the default *)
Example C16_bc1_auto_optimal_example : let x := map (fun i => lo8 (i * 37 + 11)) (zseq 0 16) in
  exists s y, transform_bc1_auto (Cfg true X86_64 false true true true true true true true x00) (Env (2 ^ 64 - 1) (fun _ => true))
    (pure (fun n => ROk (2 * n)) (fun d _ => ROk (fold_right Z.add 0 (map b2z d)) : result Z unit)) true x x tt = Ok (ROk s, y, tt) /\ s <> default_settings.
Proof.
  cbv zeta. do 2 eexists. split; [vm_compute; reflexivity|discriminate].
Qed.

(** C16: ties go to the first in test order: every candidate tried earlier has a strictly larger estimate (unless all estimates are the largest [usize], when the default is returned). *)
Theorem C16_bc1_auto_first : forall (Er : Type) (c : cfg) (v : env) (mx : Z -> result Z Er) (size : list byte -> Z -> result Z Er)
    (all : bool) (x out : list byte) (s : settings) (y : list byte),
  cpu_ok c -> (c_debug c = true -> x <> []) -> (forall d n z, size d n = ROk z -> 0 <= z /\ z <= usize_max v) ->
  transform_bc1_auto c v (pure mx size) all x out tt = Ok (ROk s, y, tt) ->
  exists scratch z, mx (zlen x / 2) = ROk scratch /\ total_size (fun d => size d scratch) (bc1_shown x s) = ROk z /\
    (z < usize_max v -> exists earlier later, tried all = earlier ++ s :: later /\
      forall s', In s' earlier -> exists z', total_size (fun d => size d scratch) (bc1_shown x s') = ROk z' /\ z < z').
Proof. exact lC16_bc1_auto_first. Qed.
Print Assumptions C16_bc1_auto_first.
(** two blocks, all modes, an estimator that adds up the bytes *)
Example C16_bc1_auto_first_met :
  let Er := unit in let c := debug_cpu in let v := roomy in let mx := twice in let size := byte_sum in let all := true in let x := texture 16 in let out := texture 16 in
  let s := chosen default_settings (transform_bc1_auto c v (pure mx size) all x out tt) in let y := left_by (transform_bc1_auto c v (pure mx size) all x out tt) in
  cpu_ok c /\ (c_debug c = true -> x <> []) /\ (forall d n z, size d n = ROk z -> 0 <= z /\ z <= usize_max v) /\ transform_bc1_auto c v (pure mx size) all x out tt = Ok
  (ROk s, y, tt) /\ s <> default_settings /\ y <> x.
Proof. met_auto. Qed.

(** C20: allowing all decorrelation modes never gives a larger estimate. *)
Theorem C20_bc1_ultra_never_worse : forall (Er : Type) (c : cfg) (v : env) (mx : Z -> result Z Er) (size : list byte -> Z -> result Z Er)
    (x out1 out2 : list byte) (s1 s2 : settings) (y1 y2 : list byte),
  cpu_ok c -> (c_debug c = true -> x <> []) -> (forall d n z, size d n = ROk z -> 0 <= z /\ z <= usize_max v) ->
  transform_bc1_auto c v (pure mx size) false x out1 tt = Ok (ROk s1, y1, tt) ->
  transform_bc1_auto c v (pure mx size) true x out2 tt = Ok (ROk s2, y2, tt) ->
  exists scratch z1 z2, mx (zlen x / 2) = ROk scratch /\
    total_size (fun d => size d scratch) (bc1_shown x s1) = ROk z1 /\ total_size (fun d => size d scratch) (bc1_shown x s2) = ROk z2 /\ z2 <= z1.
Proof. exact lC20_bc1_ultra_never_worse. Qed.
Print Assumptions C20_bc1_ultra_never_worse.
(** two blocks *)
Example C20_bc1_ultra_never_worse_met :
  let Er := unit in let c := debug_cpu in let v := roomy in let mx := twice in let size := byte_sum in let x := texture 16 in let out1 := texture 16 in let out2 := x ++
  [x00] in let r1 := transform_bc1_auto c v (pure mx size) false x out1 tt in let r2 := transform_bc1_auto c v (pure mx size) true x out2 tt in let s1 := chosen
  default_settings r1 in let s2 := chosen default_settings r2 in let y1 := left_by r1 in let y2 := left_by r2 in
  cpu_ok c /\ (c_debug c = true -> x <> []) /\ (forall d n z, size d n = ROk z -> 0 <= z /\ z <= usize_max v) /\ transform_bc1_auto c v (pure mx size) false x out1 tt =
  Ok (ROk s1, y1, tt) /\ transform_bc1_auto c v (pure mx size) true x out2 tt = Ok (ROk s2, y2, tt) /\ y1 <> x.
Proof. met_auto. Qed.

(** both searches succeed *)
Example C20_bc1_ultra_never_worse_example : let x := map (fun i => lo8 (i * 37 + 11)) (zseq 0 16) in
  exists s1 y1 s2 y2,
    transform_bc1_auto (Cfg true X86_64 false true true true true true true true x00) (Env (2 ^ 64 - 1) (fun _ => true))
      (pure (fun n => ROk (2 * n)) (fun d _ => ROk (fold_right Z.add 0 (map b2z d)) : result Z unit)) false x x tt = Ok (ROk s1, y1, tt) /\
    transform_bc1_auto (Cfg true X86_64 false true true true true true true true x00) (Env (2 ^ 64 - 1) (fun _ => true))
      (pure (fun n => ROk (2 * n)) (fun d _ => ROk (fold_right Z.add 0 (map b2z d)) : result Z unit)) true x x tt = Ok (ROk s2, y2, tt) /\ s2 <> default_settings.
Proof.
  cbv zeta. do 4 eexists. split; [vm_compute; reflexivity|]. split; [vm_compute; reflexivity|discriminate].
Qed.

(** C21: whatever the estimator does, restoring the output with the settings returned gives the input back. *)
Theorem C21_bc1_auto_lossless : forall (St Er : Type) (c1 c2 : cfg) (v : env) (e : estimator St Er) (all : bool) (x out out2 : list byte) (st st' : St) (s : settings) (y : list byte),
  cpu_ok c1 -> cpu_ok c2 -> (c_debug c1 = true -> x <> []) -> (c_debug c2 = true -> x <> []) -> 
  transform_bc1_auto c1 v e all x out st = Ok (ROk s, y, st') -> zlen x <= zlen out2 ->
  exists z, untransform_bc1 c2 s (firstn (List.length x) y) out2 = Ok (ROk tt, z) /\ firstn (List.length x) z = x.
Proof. exact lC21_bc1_auto_lossless. Qed.
Print Assumptions C21_bc1_auto_lossless.
(** two blocks, two machines, an estimator with a state *)
Example C21_bc1_auto_lossless_met :
  let St := Z in let Er := unit in let c1 := debug_cpu in let c2 := slow_cpu in let v := roomy in let e := counts in let all := true in let x := texture 16 in let out :=
  texture 16 in let out2 := x ++ [x00] in let st := 5 in let r := transform_bc1_auto c1 v e all x out st in let st' := state_of 0 r in let s := chosen default_settings r
  in let y := left_by r in
  cpu_ok c1 /\ cpu_ok c2 /\ (c_debug c1 = true -> x <> []) /\ (c_debug c2 = true -> x <> []) /\ transform_bc1_auto c1 v e all x out st = Ok (ROk s, y, st') /\ zlen x <=
  zlen out2 /\ st' <> st /\ y <> x.
Proof. met_auto. Qed.

(** C19: the call always comes to an end. It reports the estimator's error exactly when the last answer was that error, reports an allocation failure only when allocating the requested scratch space fails, and otherwise succeeds; no failing answer is ever passed over. The log does not influence the run. *)
Theorem C19_bc1_estimator_errors : forall (St Er : Type) (c : cfg) (v : env) (e : estimator St Er) (all : bool) (x out : list byte) (st : St),
  cpu_ok c -> (c_debug c = true -> x <> []) ->  zlen x mod 8 = 0 -> zlen x <= zlen out ->
  exists r y st' log, transform_bc1_auto c v e all x out st = Ok (r, y, st') /\
    transform_bc1_auto c v (logging e) all x out (st, []) = Ok (r, y, (st', log)) /\
    match r with
    | ROk _ => Forall (fun q => exists z, answer q = ROk z) log
    | RErr (DetermineBestTransform (SizeEstimationError e1)) =>
        exists before q, log = before ++ [q] /\ answer q = RErr e1 /\ Forall (fun q => exists z, answer q = ROk z) before
    | RErr (DetermineBestTransform AllocateError) => exists n, log = [AskedMax (zlen x / 2) (ROk n)] /\ alloc_ok v n = false
    | RErr _ => False
    end.
Proof. exact lC19_bc1_estimator_errors. Qed.
Print Assumptions C19_bc1_estimator_errors.
(** two blocks, an estimator that fails at the third question *)
Example C19_bc1_estimator_errors_met :
  let St := Z in let Er := unit in let c := debug_cpu in let v := roomy in let e := third_fails in let all := true in let x := texture 16 in let out := x ++ [x00] in let
  st := 0 in
  cpu_ok c /\ (c_debug c = true -> x <> []) /\ zlen x mod 8 = 0 /\ zlen x <= zlen out.
Proof. met_auto. Qed.

(** an estimator that fails on its third call *)
Example C19_bc1_estimator_errors_example : let x := map (fun i => lo8 (i * 37 + 11)) (zseq 0 16) in
  let e := Estimator (fun st n => (ROk n, st)) (fun st d _ => (if st =? 2 then RErr tt else ROk (zlen d), st + 1)) in
  exists y, transform_bc1_auto (Cfg true X86_64 false true true true true true true true x00) (Env (2 ^ 64 - 1) (fun _ => true))
    e true x x 0 = Ok (RErr (DetermineBestTransform (SizeEstimationError tt)), y, 3).
Proof.
  cbv zeta. eexists. vm_compute. reflexivity.
Qed.

(** C50: the estimator is first asked for its scratch size; then, candidate by candidate in test order, it is shown exactly the sections of [bc1_shown] with a scratch buffer of the size it asked for, until it fails or all candidates are done. *)
Theorem C50_bc1_estimator_calls : forall (St Er : Type) (c : cfg) (v : env) (e : estimator St Er) (all : bool) (x out : list byte) (st : St),
  cpu_ok c -> (c_debug c = true -> x <> []) ->  zlen x mod 8 = 0 -> zlen x <= zlen out ->
  exists r y st' a rest, transform_bc1_auto c v (logging e) all x out (st, []) = Ok (r, y, (st', AskedMax (zlen x / 2) a :: rest)) /\
    match a with
    | RErr _ => rest = []
    | ROk scratch => exists seen, Forall2 (fun d q => exists ans, q = AskedSize d scratch ans) seen rest /\
        exists unseen, flat_map (bc1_shown x) (tried all) = seen ++ unseen /\
          ((exists s, r = ROk s) -> unseen = [])
    end.
Proof. exact lC50_bc1_estimator_calls. Qed.
Print Assumptions C50_bc1_estimator_calls.
(** two blocks, an estimator that fails at the third question *)
Example C50_bc1_estimator_calls_met :
  let St := Z in let Er := unit in let c := debug_cpu in let v := roomy in let e := third_fails in let all := true in let x := texture 16 in let out := x ++ [x00] in let
  st := 0 in
  cpu_ok c /\ (c_debug c = true -> x <> []) /\ zlen x mod 8 = 0 /\ zlen x <= zlen out.
Proof. met_auto. Qed.

(** a complete run makes 1 + 8 calls *)
Example C50_bc1_estimator_calls_example : let x := map (fun i => lo8 (i * 37 + 11)) (zseq 0 16) in
  exists r y log, transform_bc1_auto (Cfg true X86_64 false true true true true true true true x00) (Env (2 ^ 64 - 1) (fun _ => true))
    (logging no_estimation) true x x (tt, []) = Ok (r, y, (tt, log)) /\ List.length log = 9%nat.
Proof.
  cbv zeta. do 3 eexists. split; vm_compute; reflexivity.
Qed.

(** C17: with a deterministic estimator, the settings returned are a candidate whose estimate is smallest among all candidates, and the output is what the transform with these settings writes. The AVX512VL condition is that of C10_bc2_avx512vl_refuted. *)
Theorem C17_bc2_auto_optimal : forall (Er : Type) (c : cfg) (v : env) (mx : Z -> result Z Er) (size : list byte -> Z -> result Z Er)
    (all : bool) (x out : list byte) (s : settings) (y : list byte),
  cpu_ok c -> (c_avx512bw c = true -> c_avx512vl c = true) -> (forall d n z, size d n = ROk z -> 0 <= z /\ z <= usize_max v) ->
  transform_bc2_auto c v (pure mx size) all x out tt = Ok (ROk s, y, tt) ->
  candidate all (decorrelation_mode s) /\ transform_bc2 c s x out = Ok (ROk tt, y) /\
  exists scratch z, mx (zlen x / 4) = ROk scratch /\ total_size (fun d => size d scratch) (bc2_shown x s) = ROk z /\
    forall s', candidate all (decorrelation_mode s') -> exists z', total_size (fun d => size d scratch) (bc2_shown x s') = ROk z' /\ z <= z'.
Proof. exact lC17_bc2_auto_optimal. Qed.
Print Assumptions C17_bc2_auto_optimal.
(** two blocks, all modes, an estimator that adds up the bytes *)
Example C17_bc2_auto_optimal_met :
  let Er := unit in let c := debug_cpu in let v := roomy in let mx := twice in let size := byte_sum in let all := true in let x := texture 32 in let out := texture 32 in
  let s := chosen default_settings (transform_bc2_auto c v (pure mx size) all x out tt) in let y := left_by (transform_bc2_auto c v (pure mx size) all x out tt) in
  cpu_ok c /\ (c_avx512bw c = true -> c_avx512vl c = true) /\ (forall d n z, size d n = ROk z -> 0 <= z /\ z <= usize_max v) /\ transform_bc2_auto c v (pure mx size) all
  x out tt = Ok (ROk s, y, tt) /\ s <> default_settings /\ y <> x.
Proof. met_auto. Qed.

(** a search that finds something better than the default *)
Example C17_bc2_auto_optimal_example : let x := map (fun i => lo8 (i * 37 + 11)) (zseq 0 32) in
  exists s y, transform_bc2_auto (Cfg true X86_64 false true true true true true true true x00) (Env (2 ^ 64 - 1) (fun _ => true))
    (pure (fun n => ROk (2 * n)) (fun d _ => ROk (fold_right Z.add 0 (map b2z d)) : result Z unit)) true x x tt = Ok (ROk s, y, tt) /\ s <> default_settings.
Proof.
  cbv zeta. do 2 eexists. split; [vm_compute; reflexivity|discriminate].
Qed.

(** C17: ties go to the first in test order: every candidate tried earlier has a strictly larger estimate (unless all estimates are the largest [usize], when the default is returned). *)
Theorem C17_bc2_auto_first : forall (Er : Type) (c : cfg) (v : env) (mx : Z -> result Z Er) (size : list byte -> Z -> result Z Er)
    (all : bool) (x out : list byte) (s : settings) (y : list byte),
  cpu_ok c -> (c_avx512bw c = true -> c_avx512vl c = true) -> (forall d n z, size d n = ROk z -> 0 <= z /\ z <= usize_max v) ->
  transform_bc2_auto c v (pure mx size) all x out tt = Ok (ROk s, y, tt) ->
  exists scratch z, mx (zlen x / 4) = ROk scratch /\ total_size (fun d => size d scratch) (bc2_shown x s) = ROk z /\
    (z < usize_max v -> exists earlier later, tried all = earlier ++ s :: later /\
      forall s', In s' earlier -> exists z', total_size (fun d => size d scratch) (bc2_shown x s') = ROk z' /\ z < z').
Proof. exact lC17_bc2_auto_first. Qed.
Print Assumptions C17_bc2_auto_first.
(** two blocks, all modes, an estimator that adds up the bytes *)
Example C17_bc2_auto_first_met :
  let Er := unit in let c := debug_cpu in let v := roomy in let mx := twice in let size := byte_sum in let all := true in let x := texture 32 in let out := texture 32 in
  let s := chosen default_settings (transform_bc2_auto c v (pure mx size) all x out tt) in let y := left_by (transform_bc2_auto c v (pure mx size) all x out tt) in
  cpu_ok c /\ (c_avx512bw c = true -> c_avx512vl c = true) /\ (forall d n z, size d n = ROk z -> 0 <= z /\ z <= usize_max v) /\ transform_bc2_auto c v (pure mx size) all
  x out tt = Ok (ROk s, y, tt) /\ s <> default_settings /\ y <> x.
Proof. met_auto. Qed.

(** C20: allowing all decorrelation modes never gives a larger estimate. The AVX512VL condition is that of C10_bc2_avx512vl_refuted. *)
Theorem C20_bc2_ultra_never_worse : forall (Er : Type) (c : cfg) (v : env) (mx : Z -> result Z Er) (size : list byte -> Z -> result Z Er)
    (x out1 out2 : list byte) (s1 s2 : settings) (y1 y2 : list byte),
  cpu_ok c -> (c_avx512bw c = true -> c_avx512vl c = true) -> (forall d n z, size d n = ROk z -> 0 <= z /\ z <= usize_max v) ->
  transform_bc2_auto c v (pure mx size) false x out1 tt = Ok (ROk s1, y1, tt) ->
  transform_bc2_auto c v (pure mx size) true x out2 tt = Ok (ROk s2, y2, tt) ->
  exists scratch z1 z2, mx (zlen x / 4) = ROk scratch /\
    total_size (fun d => size d scratch) (bc2_shown x s1) = ROk z1 /\ total_size (fun d => size d scratch) (bc2_shown x s2) = ROk z2 /\ z2 <= z1.
Proof. exact lC20_bc2_ultra_never_worse. Qed.
Print Assumptions C20_bc2_ultra_never_worse.
(** two blocks *)
Example C20_bc2_ultra_never_worse_met :
  let Er := unit in let c := debug_cpu in let v := roomy in let mx := twice in let size := byte_sum in let x := texture 32 in let out1 := texture 32 in let out2 := x ++
  [x00] in let r1 := transform_bc2_auto c v (pure mx size) false x out1 tt in let r2 := transform_bc2_auto c v (pure mx size) true x out2 tt in let s1 := chosen
  default_settings r1 in let s2 := chosen default_settings r2 in let y1 := left_by r1 in let y2 := left_by r2 in
  cpu_ok c /\ (c_avx512bw c = true -> c_avx512vl c = true) /\ (forall d n z, size d n = ROk z -> 0 <= z /\ z <= usize_max v) /\ transform_bc2_auto c v (pure mx size)
  false x out1 tt = Ok (ROk s1, y1, tt) /\ transform_bc2_auto c v (pure mx size) true x out2 tt = Ok (ROk s2, y2, tt) /\ y1 <> x.
Proof. met_auto. Qed.

(** both searches succeed *)
Example C20_bc2_ultra_never_worse_example : let x := map (fun i => lo8 (i * 37 + 11)) (zseq 0 32) in
  exists s1 y1 s2 y2,
    transform_bc2_auto (Cfg true X86_64 false true true true true true true true x00) (Env (2 ^ 64 - 1) (fun _ => true))
      (pure (fun n => ROk (2 * n)) (fun d _ => ROk (fold_right Z.add 0 (map b2z d)) : result Z unit)) false x x tt = Ok (ROk s1, y1, tt) /\
    transform_bc2_auto (Cfg true X86_64 false true true true true true true true x00) (Env (2 ^ 64 - 1) (fun _ => true))
      (pure (fun n => ROk (2 * n)) (fun d _ => ROk (fold_right Z.add 0 (map b2z d)) : result Z unit)) true x x tt = Ok (ROk s2, y2, tt) /\ s2 <> default_settings.
Proof.
  cbv zeta. do 4 eexists. split; [vm_compute; reflexivity|]. split; [vm_compute; reflexivity|discriminate].
Qed.

(** C21: whatever the estimator does, restoring the output with the settings returned gives the input back. The AVX512VL condition is that of C10_bc2_avx512vl_refuted. *)
Theorem C21_bc2_auto_lossless : forall (St Er : Type) (c1 c2 : cfg) (v : env) (e : estimator St Er) (all : bool) (x out out2 : list byte) (st st' : St) (s : settings) (y : list byte),
  cpu_ok c1 -> cpu_ok c2 -> (c_avx512bw c1 = true -> c_avx512vl c1 = true) ->  
  transform_bc2_auto c1 v e all x out st = Ok (ROk s, y, st') -> zlen x <= zlen out2 ->
  exists z, untransform_bc2 c2 s (firstn (List.length x) y) out2 = Ok (ROk tt, z) /\ firstn (List.length x) z = x.
Proof. exact lC21_bc2_auto_lossless. Qed.
Print Assumptions C21_bc2_auto_lossless.
(** two blocks, two machines, an estimator with a state *)
Example C21_bc2_auto_lossless_met :
  let St := Z in let Er := unit in let c1 := debug_cpu in let c2 := slow_cpu in let v := roomy in let e := counts in let all := true in let x := texture 32 in let out :=
  texture 32 in let out2 := x ++ [x00] in let st := 5 in let r := transform_bc2_auto c1 v e all x out st in let st' := state_of 0 r in let s := chosen default_settings r
  in let y := left_by r in
  cpu_ok c1 /\ cpu_ok c2 /\ (c_avx512bw c1 = true -> c_avx512vl c1 = true) /\ transform_bc2_auto c1 v e all x out st = Ok (ROk s, y, st') /\ zlen x <= zlen out2 /\ st' <>
  st /\ y <> x.
Proof. met_auto. Qed.

(** C19: the call always comes to an end. It reports the estimator's error exactly when the last answer was that error, reports an allocation failure only when allocating the requested scratch space fails, and otherwise succeeds; no failing answer is ever passed over. The log does not influence the run. The AVX512VL condition is that of C10_bc2_avx512vl_refuted. *)
Theorem C19_bc2_estimator_errors : forall (St Er : Type) (c : cfg) (v : env) (e : estimator St Er) (all : bool) (x out : list byte) (st : St),
  cpu_ok c -> (c_avx512bw c = true -> c_avx512vl c = true) ->  zlen x mod 16 = 0 -> zlen x <= zlen out ->
  exists r y st' log, transform_bc2_auto c v e all x out st = Ok (r, y, st') /\
    transform_bc2_auto c v (logging e) all x out (st, []) = Ok (r, y, (st', log)) /\
    match r with
    | ROk _ => Forall (fun q => exists z, answer q = ROk z) log
    | RErr (DetermineBestTransform (SizeEstimationError e1)) =>
        exists before q, log = before ++ [q] /\ answer q = RErr e1 /\ Forall (fun q => exists z, answer q = ROk z) before
    | RErr (DetermineBestTransform AllocateError) => exists n, log = [AskedMax (zlen x / 4) (ROk n)] /\ alloc_ok v n = false
    | RErr _ => False
    end.
Proof. exact lC19_bc2_estimator_errors. Qed.
Print Assumptions C19_bc2_estimator_errors.
(** two blocks, an estimator that fails at the third question *)
Example C19_bc2_estimator_errors_met :
  let St := Z in let Er := unit in let c := debug_cpu in let v := roomy in let e := third_fails in let all := true in let x := texture 32 in let out := x ++ [x00] in let
  st := 0 in
  cpu_ok c /\ (c_avx512bw c = true -> c_avx512vl c = true) /\ zlen x mod 16 = 0 /\ zlen x <= zlen out.
Proof. met_auto. Qed.

(** an estimator that fails on its third call *)
Example C19_bc2_estimator_errors_example : let x := map (fun i => lo8 (i * 37 + 11)) (zseq 0 32) in
  let e := Estimator (fun st n => (ROk n, st)) (fun st d _ => (if st =? 2 then RErr tt else ROk (zlen d), st + 1)) in
  exists y, transform_bc2_auto (Cfg true X86_64 false true true true true true true true x00) (Env (2 ^ 64 - 1) (fun _ => true))
    e true x x 0 = Ok (RErr (DetermineBestTransform (SizeEstimationError tt)), y, 3).
Proof.
  cbv zeta. eexists. vm_compute. reflexivity.
Qed.

(** C50: the estimator is first asked for its scratch size; then, candidate by candidate in test order, it is shown exactly the sections of [bc2_shown] with a scratch buffer of the size it asked for, until it fails or all candidates are done. The AVX512VL condition is that of C10_bc2_avx512vl_refuted. *)
Theorem C50_bc2_estimator_calls : forall (St Er : Type) (c : cfg) (v : env) (e : estimator St Er) (all : bool) (x out : list byte) (st : St),
  cpu_ok c -> (c_avx512bw c = true -> c_avx512vl c = true) ->  zlen x mod 16 = 0 -> zlen x <= zlen out ->
  exists r y st' a rest, transform_bc2_auto c v (logging e) all x out (st, []) = Ok (r, y, (st', AskedMax (zlen x / 4) a :: rest)) /\
    match a with
    | RErr _ => rest = []
    | ROk scratch => exists seen, Forall2 (fun d q => exists ans, q = AskedSize d scratch ans) seen rest /\
        exists unseen, flat_map (bc2_shown x) (tried all) = seen ++ unseen /\
          ((exists s, r = ROk s) -> unseen = [])
    end.
Proof. exact lC50_bc2_estimator_calls. Qed.
Print Assumptions C50_bc2_estimator_calls.
(** two blocks, an estimator that fails at the third question *)
Example C50_bc2_estimator_calls_met :
  let St := Z in let Er := unit in let c := debug_cpu in let v := roomy in let e := third_fails in let all := true in let x := texture 32 in let out := x ++ [x00] in let
  st := 0 in
  cpu_ok c /\ (c_avx512bw c = true -> c_avx512vl c = true) /\ zlen x mod 16 = 0 /\ zlen x <= zlen out.
Proof. met_auto. Qed.

(** a complete run makes 1 + 8 calls *)
Example C50_bc2_estimator_calls_example : let x := map (fun i => lo8 (i * 37 + 11)) (zseq 0 32) in
  exists r y log, transform_bc2_auto (Cfg true X86_64 false true true true true true true true x00) (Env (2 ^ 64 - 1) (fun _ => true))
    (logging no_estimation) true x x (tt, []) = Ok (r, y, (tt, log)) /\ List.length log = 9%nat.
Proof.
  cbv zeta. do 3 eexists. split; vm_compute; reflexivity.
Qed.

(** C18: with a deterministic estimator, the settings returned are a candidate whose estimate is smallest among all candidates, and the output is what the transform with these settings writes. Two answers of the estimator must add up within a [usize] (C18_bc3_overflow_refuted). *)
Theorem C18_bc3_auto_optimal : forall (Er : Type) (c : cfg) (v : env) (mx : Z -> result Z Er) (size : list byte -> Z -> result Z Er)
    (all : bool) (x out : list byte) (s : settings3) (y : list byte),
  cpu_ok c -> (c_debug c = true -> x <> []) -> (forall d n z, size d n = ROk z -> 0 <= z /\ 2 * z <= usize_max v) ->
  transform_bc3_auto c v (pure mx size) all x out tt = Ok (ROk s, y, tt) ->
  candidate all (decorrelation_mode3 s) /\ transform_bc3 c s x out = Ok (ROk tt, y) /\
  exists scratch z, mx (zlen x / 4) = ROk scratch /\ total_size (fun d => size d scratch) (bc3_shown x s) = ROk z /\
    forall s', candidate all (decorrelation_mode3 s') -> exists z', total_size (fun d => size d scratch) (bc3_shown x s') = ROk z' /\ z <= z'.
Proof. exact lC18_bc3_auto_optimal. Qed.
Print Assumptions C18_bc3_auto_optimal.
(** two blocks, all modes, an estimator that adds up the bytes *)
Example C18_bc3_auto_optimal_met :
  let Er := unit in let c := debug_cpu in let v := roomy in let mx := twice in let size := byte_sum in let all := true in let x := texture 32 in let out := texture 32 in
  let s := chosen default_settings3 (transform_bc3_auto c v (pure mx size) all x out tt) in let y := left_by (transform_bc3_auto c v (pure mx size) all x out tt) in
  cpu_ok c /\ (c_debug c = true -> x <> []) /\ (forall d n z, size d n = ROk z -> 0 <= z /\ 2 * z <= usize_max v) /\ transform_bc3_auto c v (pure mx size) all x out tt =
  Ok (ROk s, y, tt) /\ s <> default_settings3 /\ y <> x.
Proof. met_auto. Qed.

(** a search that finds something better than the default *)
Example C18_bc3_auto_optimal_example : let x := map (fun i => lo8 (i * 37 + 11)) (zseq 0 32) in
  exists s y, transform_bc3_auto (Cfg true X86_64 false true true true true true true true x00) (Env (2 ^ 64 - 1) (fun _ => true))
    (pure (fun n => ROk (2 * n)) (fun d _ => ROk (fold_right Z.add 0 (map b2z d)) : result Z unit)) true x x tt = Ok (ROk s, y, tt) /\ s <> default_settings3.
Proof.
  cbv zeta. do 2 eexists. split; [vm_compute; reflexivity|discriminate].
Qed.

(** C18: ties go to the first in test order: every candidate tried earlier has a strictly larger estimate (unless all estimates are the largest [usize], when the default is returned). *)
Theorem C18_bc3_auto_first : forall (Er : Type) (c : cfg) (v : env) (mx : Z -> result Z Er) (size : list byte -> Z -> result Z Er)
    (all : bool) (x out : list byte) (s : settings3) (y : list byte),
  cpu_ok c -> (c_debug c = true -> x <> []) -> (forall d n z, size d n = ROk z -> 0 <= z /\ 2 * z <= usize_max v) ->
  transform_bc3_auto c v (pure mx size) all x out tt = Ok (ROk s, y, tt) ->
  exists scratch z, mx (zlen x / 4) = ROk scratch /\ total_size (fun d => size d scratch) (bc3_shown x s) = ROk z /\
    (z < usize_max v -> exists earlier later, tried3 all = earlier ++ s :: later /\
      forall s', In s' earlier -> exists z', total_size (fun d => size d scratch) (bc3_shown x s') = ROk z' /\ z < z').
Proof. exact lC18_bc3_auto_first. Qed.
Print Assumptions C18_bc3_auto_first.
(** two blocks, all modes, an estimator that adds up the bytes *)
Example C18_bc3_auto_first_met :
  let Er := unit in let c := debug_cpu in let v := roomy in let mx := twice in let size := byte_sum in let all := true in let x := texture 32 in let out := texture 32 in
  let s := chosen default_settings3 (transform_bc3_auto c v (pure mx size) all x out tt) in let y := left_by (transform_bc3_auto c v (pure mx size) all x out tt) in
  cpu_ok c /\ (c_debug c = true -> x <> []) /\ (forall d n z, size d n = ROk z -> 0 <= z /\ 2 * z <= usize_max v) /\ transform_bc3_auto c v (pure mx size) all x out tt =
  Ok (ROk s, y, tt) /\ s <> default_settings3 /\ y <> x.
Proof. met_auto. Qed.

(** C20: allowing all decorrelation modes never gives a larger estimate. Two answers of the estimator must add up within a [usize] (C18_bc3_overflow_refuted). *)
Theorem C20_bc3_ultra_never_worse : forall (Er : Type) (c : cfg) (v : env) (mx : Z -> result Z Er) (size : list byte -> Z -> result Z Er)
    (x out1 out2 : list byte) (s1 s2 : settings3) (y1 y2 : list byte),
  cpu_ok c -> (c_debug c = true -> x <> []) -> (forall d n z, size d n = ROk z -> 0 <= z /\ 2 * z <= usize_max v) ->
  transform_bc3_auto c v (pure mx size) false x out1 tt = Ok (ROk s1, y1, tt) ->
  transform_bc3_auto c v (pure mx size) true x out2 tt = Ok (ROk s2, y2, tt) ->
  exists scratch z1 z2, mx (zlen x / 4) = ROk scratch /\
    total_size (fun d => size d scratch) (bc3_shown x s1) = ROk z1 /\ total_size (fun d => size d scratch) (bc3_shown x s2) = ROk z2 /\ z2 <= z1.
Proof. exact lC20_bc3_ultra_never_worse. Qed.
Print Assumptions C20_bc3_ultra_never_worse.
(** two blocks *)
Example C20_bc3_ultra_never_worse_met :
  let Er := unit in let c := debug_cpu in let v := roomy in let mx := twice in let size := byte_sum in let x := texture 32 in let out1 := texture 32 in let out2 := x ++
  [x00] in let r1 := transform_bc3_auto c v (pure mx size) false x out1 tt in let r2 := transform_bc3_auto c v (pure mx size) true x out2 tt in let s1 := chosen
  default_settings3 r1 in let s2 := chosen default_settings3 r2 in let y1 := left_by r1 in let y2 := left_by r2 in
  cpu_ok c /\ (c_debug c = true -> x <> []) /\ (forall d n z, size d n = ROk z -> 0 <= z /\ 2 * z <= usize_max v) /\ transform_bc3_auto c v (pure mx size) false x out1 tt
  = Ok (ROk s1, y1, tt) /\ transform_bc3_auto c v (pure mx size) true x out2 tt = Ok (ROk s2, y2, tt) /\ y1 <> x.
Proof. met_auto. Qed.

(** both searches succeed *)
Example C20_bc3_ultra_never_worse_example : let x := map (fun i => lo8 (i * 37 + 11)) (zseq 0 32) in
  exists s1 y1 s2 y2,
    transform_bc3_auto (Cfg true X86_64 false true true true true true true true x00) (Env (2 ^ 64 - 1) (fun _ => true))
      (pure (fun n => ROk (2 * n)) (fun d _ => ROk (fold_right Z.add 0 (map b2z d)) : result Z unit)) false x x tt = Ok (ROk s1, y1, tt) /\
    transform_bc3_auto (Cfg true X86_64 false true true true true true true true x00) (Env (2 ^ 64 - 1) (fun _ => true))
      (pure (fun n => ROk (2 * n)) (fun d _ => ROk (fold_right Z.add 0 (map b2z d)) : result Z unit)) true x x tt = Ok (ROk s2, y2, tt) /\ s2 <> default_settings3.
Proof.
  cbv zeta. do 4 eexists. split; [vm_compute; reflexivity|]. split; [vm_compute; reflexivity|discriminate].
Qed.

(** C21: whatever the estimator does, restoring the output with the settings returned gives the input back. Two answers of the estimator must add up within a [usize] (C18_bc3_overflow_refuted). *)
Theorem C21_bc3_auto_lossless : forall (St Er : Type) (c1 c2 : cfg) (v : env) (e : estimator St Er) (all : bool) (x out out2 : list byte) (st st' : St) (s : settings3) (y : list byte),
  cpu_ok c1 -> cpu_ok c2 -> (c_debug c1 = true -> x <> []) -> (c_debug c2 = true -> x <> []) -> (forall st d n z st', estimate_compressed_size e st d n = (ROk z, st') -> 2 * z <= usize_max v) ->
  transform_bc3_auto c1 v e all x out st = Ok (ROk s, y, st') -> zlen x <= zlen out2 ->
  exists z, untransform_bc3 c2 s (firstn (List.length x) y) out2 = Ok (ROk tt, z) /\ firstn (List.length x) z = x.
Proof. exact lC21_bc3_auto_lossless. Qed.
Print Assumptions C21_bc3_auto_lossless.
(** two blocks, two machines, an estimator with a state *)
Example C21_bc3_auto_lossless_met :
  let St := Z in let Er := unit in let c1 := debug_cpu in let c2 := slow_cpu in let v := roomy in let e := counts in let all := true in let x := texture 32 in let out :=
  texture 32 in let out2 := x ++ [x00] in let st := 5 in let r := transform_bc3_auto c1 v e all x out st in let st' := state_of 0 r in let s := chosen default_settings3 r
  in let y := left_by r in
  cpu_ok c1 /\ cpu_ok c2 /\ (c_debug c1 = true -> x <> []) /\ (c_debug c2 = true -> x <> []) /\ (forall st d n z st', estimate_compressed_size e st d n = (ROk z, st') ->
  2 * z <= usize_max v) /\ transform_bc3_auto c1 v e all x out st = Ok (ROk s, y, st') /\ zlen x <= zlen out2 /\ st' <> st /\ y <> x.
Proof. met_auto. Qed.

(** C19: the call always comes to an end. It reports the estimator's error exactly when the last answer was that error, reports an allocation failure only when allocating the requested scratch space fails, and otherwise succeeds; no failing answer is ever passed over. The log does not influence the run. Two answers of the estimator must add up within a [usize] (C18_bc3_overflow_refuted). *)
Theorem C19_bc3_estimator_errors : forall (St Er : Type) (c : cfg) (v : env) (e : estimator St Er) (all : bool) (x out : list byte) (st : St),
  cpu_ok c -> (c_debug c = true -> x <> []) -> (forall st d n z st', estimate_compressed_size e st d n = (ROk z, st') -> 2 * z <= usize_max v) -> zlen x mod 16 = 0 -> zlen x <= zlen out ->
  exists r y st' log, transform_bc3_auto c v e all x out st = Ok (r, y, st') /\
    transform_bc3_auto c v (logging e) all x out (st, []) = Ok (r, y, (st', log)) /\
    match r with
    | ROk _ => Forall (fun q => exists z, answer q = ROk z) log
    | RErr (DetermineBestTransform (SizeEstimationError e1)) =>
        exists before q, log = before ++ [q] /\ answer q = RErr e1 /\ Forall (fun q => exists z, answer q = ROk z) before
    | RErr (DetermineBestTransform AllocateError) => exists n, log = [AskedMax (zlen x / 4) (ROk n)] /\ alloc_ok v n = false
    | RErr _ => False
    end.
Proof. exact lC19_bc3_estimator_errors. Qed.
Print Assumptions C19_bc3_estimator_errors.
(** two blocks, an estimator that fails at the third question *)
Example C19_bc3_estimator_errors_met :
  let St := Z in let Er := unit in let c := debug_cpu in let v := roomy in let e := third_fails in let all := true in let x := texture 32 in let out := x ++ [x00] in let
  st := 0 in
  cpu_ok c /\ (c_debug c = true -> x <> []) /\ (forall st d n z st', estimate_compressed_size e st d n = (ROk z, st') -> 2 * z <= usize_max v) /\ zlen x mod 16 = 0 /\
  zlen x <= zlen out.
Proof. met_auto. Qed.

(** an estimator that fails on its third call *)
Example C19_bc3_estimator_errors_example : let x := map (fun i => lo8 (i * 37 + 11)) (zseq 0 32) in
  let e := Estimator (fun st n => (ROk n, st)) (fun st d _ => (if st =? 2 then RErr tt else ROk (zlen d), st + 1)) in
  exists y, transform_bc3_auto (Cfg true X86_64 false true true true true true true true x00) (Env (2 ^ 64 - 1) (fun _ => true))
    e true x x 0 = Ok (RErr (DetermineBestTransform (SizeEstimationError tt)), y, 3).
Proof.
  cbv zeta. eexists. vm_compute. reflexivity.
Qed.

(** C50: the estimator is first asked for its scratch size; then, candidate by candidate in test order, it is shown exactly the sections of [bc3_shown] with a scratch buffer of the size it asked for, until it fails or all candidates are done. Two answers of the estimator must add up within a [usize] (C18_bc3_overflow_refuted). *)
Theorem C50_bc3_estimator_calls : forall (St Er : Type) (c : cfg) (v : env) (e : estimator St Er) (all : bool) (x out : list byte) (st : St),
  cpu_ok c -> (c_debug c = true -> x <> []) -> (forall st d n z st', estimate_compressed_size e st d n = (ROk z, st') -> 2 * z <= usize_max v) -> zlen x mod 16 = 0 -> zlen x <= zlen out ->
  exists r y st' a rest, transform_bc3_auto c v (logging e) all x out (st, []) = Ok (r, y, (st', AskedMax (zlen x / 4) a :: rest)) /\
    match a with
    | RErr _ => rest = []
    | ROk scratch => exists seen, Forall2 (fun d q => exists ans, q = AskedSize d scratch ans) seen rest /\
        exists unseen, flat_map (bc3_shown x) (tried3 all) = seen ++ unseen /\
          ((exists s, r = ROk s) -> unseen = [])
    end.
Proof. exact lC50_bc3_estimator_calls. Qed.
Print Assumptions C50_bc3_estimator_calls.
(** two blocks, an estimator that fails at the third question *)
Example C50_bc3_estimator_calls_met :
  let St := Z in let Er := unit in let c := debug_cpu in let v := roomy in let e := third_fails in let all := true in let x := texture 32 in let out := x ++ [x00] in let
  st := 0 in
  cpu_ok c /\ (c_debug c = true -> x <> []) /\ (forall st d n z st', estimate_compressed_size e st d n = (ROk z, st') -> 2 * z <= usize_max v) /\ zlen x mod 16 = 0 /\
  zlen x <= zlen out.
Proof. met_auto. Qed.

(** a complete run makes 1 + 2 * 16 calls *)
Example C50_bc3_estimator_calls_example : let x := map (fun i => lo8 (i * 37 + 11)) (zseq 0 32) in
  exists r y log, transform_bc3_auto (Cfg true X86_64 false true true true true true true true x00) (Env (2 ^ 64 - 1) (fun _ => true))
    (logging no_estimation) true x x (tt, []) = Ok (r, y, (tt, log)) /\ List.length log = 33%nat.
Proof.
  cbv zeta. do 3 eexists. split; vm_compute; reflexivity.
Qed.

(** C18 without the condition on the size of the answers: alpha and colour estimates are added as [usize]. In a release build the sum wraps and the worst candidate wins; in a debug build the call panics. *)
Theorem C18_bc3_overflow_refuted : exists (v : env) (size : list byte -> Z -> result Z unit) (x out : list byte) (s best : settings3) (y : list byte) (z z' : Z),
  (forall d n k, size d n = ROk k -> 0 <= k <= usize_max v) /\ zlen x mod 16 = 0 /\ zlen x <= zlen out /\
  transform_bc3_auto (Cfg false X86_64 false true true true true true true true x00) v (pure (fun n => ROk n) size) true x out tt = Ok (ROk s, y, tt) /\
  total_size (fun d => size d (zlen x / 4)) (bc3_shown x s) = ROk z /\
  total_size (fun d => size d (zlen x / 4)) (bc3_shown x best) = ROk z' /\ z' < z /\
  exists why, transform_bc3_auto (Cfg true X86_64 false true true true true true true true x00) v (pure (fun n => ROk n) size) true x out tt = Panic why.
Proof. exact lC18_bc3_overflow_refuted. Qed.
Print Assumptions C18_bc3_overflow_refuted.

(** C15: the checks come before the search. A length that is not a whole number of blocks is reported with the length, an output shorter than the input with both lengths, and then the output is untouched and the estimator is not asked; no other call reports these. *)
Theorem C15_bc1_auto_validation : forall (St Er : Type) (c : cfg) (v : env) (e : estimator St Er) (all : bool) (x out : list byte) (st : St),
  (zlen x mod 8 <> 0 -> transform_bc1_auto c v e all x out st = Ok (RErr (AutoInvalidLength (zlen x)), out, st)) /\
  (zlen x mod 8 = 0 -> zlen out < zlen x -> transform_bc1_auto c v e all x out st = Ok (RErr (AutoOutputBufferTooSmall (zlen x) (zlen out)), out, st)) /\
  (zlen x mod 8 = 0 -> zlen x <= zlen out -> forall r y st', transform_bc1_auto c v e all x out st = Ok (RErr r, y, st') -> exists d, r = DetermineBestTransform d).
Proof. exact lC15_bc1_auto_validation. Qed.
Print Assumptions C15_bc1_auto_validation.
Theorem C15_bc2_auto_validation : forall (St Er : Type) (c : cfg) (v : env) (e : estimator St Er) (all : bool) (x out : list byte) (st : St),
  (zlen x mod 16 <> 0 -> transform_bc2_auto c v e all x out st = Ok (RErr (AutoInvalidLength (zlen x)), out, st)) /\
  (zlen x mod 16 = 0 -> zlen out < zlen x -> transform_bc2_auto c v e all x out st = Ok (RErr (AutoOutputBufferTooSmall (zlen x) (zlen out)), out, st)) /\
  (zlen x mod 16 = 0 -> zlen x <= zlen out -> forall r y st', transform_bc2_auto c v e all x out st = Ok (RErr r, y, st') -> exists d, r = DetermineBestTransform d).
Proof. exact lC15_bc2_auto_validation. Qed.
Print Assumptions C15_bc2_auto_validation.
Theorem C15_bc3_auto_validation : forall (St Er : Type) (c : cfg) (v : env) (e : estimator St Er) (all : bool) (x out : list byte) (st : St),
  (zlen x mod 16 <> 0 -> transform_bc3_auto c v e all x out st = Ok (RErr (AutoInvalidLength (zlen x)), out, st)) /\
  (zlen x mod 16 = 0 -> zlen out < zlen x -> transform_bc3_auto c v e all x out st = Ok (RErr (AutoOutputBufferTooSmall (zlen x) (zlen out)), out, st)) /\
  (zlen x mod 16 = 0 -> zlen x <= zlen out -> forall r y st', transform_bc3_auto c v e all x out st = Ok (RErr r, y, st') -> exists d, r = DetermineBestTransform d).
Proof. exact lC15_bc3_auto_validation. Qed.
Print Assumptions C15_bc3_auto_validation.

Example C15_auto_validation_example : let c := Cfg true X86_64 false true true true true true true true x00 in
  let v := Env (2 ^ 64 - 1) (fun _ => true) in
  transform_bc1_auto c v no_estimation true (repeat x00 9) (repeat x00 16) tt = Ok (RErr (AutoInvalidLength 9), repeat x00 16, tt) /\
  transform_bc3_auto c v no_estimation true (repeat x00 32) (repeat x00 16) tt = Ok (RErr (AutoOutputBufferTooSmall 32 16), repeat x00 16, tt).
Proof. split; vm_compute; reflexivity. Qed.
