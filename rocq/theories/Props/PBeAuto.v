(** C74: the automatic choice of settings on a big-endian machine.
    [be_transform_bcN_auto] are the entry points compiled for such a machine
    (Model/BeFiles.v); [be_bcN_shown] is what an estimator is shown there
    (Spec/BeFiles.v). *)
From Verif Require Import Base.Bytes Base.Res Model.Color565 Model.Kernel Model.Transform Model.Auto Model.BigEndian Model.BeTransform Model.BeFiles
  Spec.YCoCg Spec.Layout Spec.BigEndian Spec.Estimator Spec.BeFiles Proofs.BigEndianFacts Proofs.BeAutoTheorems Props.Cases Props.CasesAuto.
Open Scope Z_scope.

(** C74, BC1: with a deterministic estimator, the settings returned are a candidate whose estimate is smallest among all candidates, what is estimated being the big-endian layout; the output is what the big-endian transform with these settings writes. *)
Theorem C74_bc1_auto_optimal : forall (Er : Type) (debug : bool) (junk : byte) (v : env) (mx : Z -> result Z Er) (size : list byte -> Z -> result Z Er)
    (all : bool) (x out : list byte) (s : settings) (y : list byte),
  (forall d n z, size d n = ROk z -> 0 <= z /\ z <= usize_max v) ->
  be_transform_bc1_auto (big_endian_cpu debug junk) v (pure mx size) all x out tt = Ok (ROk s, y, tt) ->
  candidate all (decorrelation_mode s) /\ be_transform_bc1 (big_endian_cpu debug junk) s x out = Ok (ROk tt, y) /\
  exists scratch z, mx (zlen x / 2) = ROk scratch /\ total_size (fun d => size d scratch) (be_bc1_shown x s) = ROk z /\
    forall s', candidate all (decorrelation_mode s') -> exists z', total_size (fun d => size d scratch) (be_bc1_shown x s') = ROk z' /\ z <= z'.
Proof. intros Er d j v mx size all x out s y. exact (be_lC16_bc1_auto_optimal Er (big_endian_cpu d j) v mx size all x out s y (big_endian_ok d j)). Qed.
Print Assumptions C74_bc1_auto_optimal.
(** two blocks, all modes, an estimator that adds up the bytes *)
Example C74_bc1_auto_optimal_met :
  let Er := unit in let debug := true in let junk := x5a in let v := roomy in let mx := twice in let size := byte_sum in let all := true in let x := texture 16 in let out
  := texture 16 in let s := chosen default_settings (be_transform_bc1_auto (big_endian_cpu debug junk) v (pure mx size) all x out tt) in let y := left_by
  (be_transform_bc1_auto (big_endian_cpu debug junk) v (pure mx size) all x out tt) in
  (forall d n z, size d n = ROk z -> 0 <= z /\ z <= usize_max v) /\ be_transform_bc1_auto (big_endian_cpu debug junk) v (pure mx size) all x out tt = Ok (ROk s, y, tt) /\
  y <> x.
Proof. met_auto. Qed.

(** C74, BC1: among the candidates with the smallest estimate the first one in the test order is returned. *)
Theorem C74_bc1_auto_first : forall (Er : Type) (debug : bool) (junk : byte) (v : env) (mx : Z -> result Z Er) (size : list byte -> Z -> result Z Er)
    (all : bool) (x out : list byte) (s : settings) (y : list byte),
  (forall d n z, size d n = ROk z -> 0 <= z /\ z <= usize_max v) ->
  be_transform_bc1_auto (big_endian_cpu debug junk) v (pure mx size) all x out tt = Ok (ROk s, y, tt) ->
  exists scratch z, mx (zlen x / 2) = ROk scratch /\ total_size (fun d => size d scratch) (be_bc1_shown x s) = ROk z /\
    (z < usize_max v -> exists earlier later, tried all = earlier ++ s :: later /\
      forall s', In s' earlier -> exists z', total_size (fun d => size d scratch) (be_bc1_shown x s') = ROk z' /\ z < z').
Proof. intros Er d j v mx size all x out s y. exact (be_lC16_bc1_auto_first Er (big_endian_cpu d j) v mx size all x out s y (big_endian_ok d j)). Qed.
Print Assumptions C74_bc1_auto_first.
(** two blocks, all modes, an estimator that adds up the bytes *)
Example C74_bc1_auto_first_met :
  let Er := unit in let debug := true in let junk := x5a in let v := roomy in let mx := twice in let size := byte_sum in let all := true in let x := texture 16 in let out
  := texture 16 in let s := chosen default_settings (be_transform_bc1_auto (big_endian_cpu debug junk) v (pure mx size) all x out tt) in let y := left_by
  (be_transform_bc1_auto (big_endian_cpu debug junk) v (pure mx size) all x out tt) in
  (forall d n z, size d n = ROk z -> 0 <= z /\ z <= usize_max v) /\ be_transform_bc1_auto (big_endian_cpu debug junk) v (pure mx size) all x out tt = Ok (ROk s, y, tt) /\
  y <> x.
Proof. met_auto. Qed.

(** C74, BC1: the search over all candidates never ends with a larger estimate than the fast one. *)
Theorem C74_bc1_ultra_never_worse : forall (Er : Type) (debug : bool) (junk : byte) (v : env) (mx : Z -> result Z Er) (size : list byte -> Z -> result Z Er)
    (x out1 out2 : list byte) (s1 s2 : settings) (y1 y2 : list byte),
  (forall d n z, size d n = ROk z -> 0 <= z /\ z <= usize_max v) ->
  be_transform_bc1_auto (big_endian_cpu debug junk) v (pure mx size) false x out1 tt = Ok (ROk s1, y1, tt) ->
  be_transform_bc1_auto (big_endian_cpu debug junk) v (pure mx size) true x out2 tt = Ok (ROk s2, y2, tt) ->
  exists scratch z1 z2, mx (zlen x / 2) = ROk scratch /\
    total_size (fun d => size d scratch) (be_bc1_shown x s1) = ROk z1 /\ total_size (fun d => size d scratch) (be_bc1_shown x s2) = ROk z2 /\ z2 <= z1.
Proof. intros Er d j v mx size x out1 out2 s1 s2 y1 y2. exact (be_lC20_bc1_ultra_never_worse Er (big_endian_cpu d j) v mx size x out1 out2 s1 s2 y1 y2 (big_endian_ok d j)). Qed.
Print Assumptions C74_bc1_ultra_never_worse.
(** two blocks *)
Example C74_bc1_ultra_never_worse_met :
  let Er := unit in let debug := true in let junk := x5a in let v := roomy in let mx := twice in let size := byte_sum in let x := texture 16 in let out1 := texture 16 in
  let out2 := x ++ [x00] in let r1 := be_transform_bc1_auto (big_endian_cpu debug junk) v (pure mx size) false x out1 tt in let r2 := be_transform_bc1_auto
  (big_endian_cpu debug junk) v (pure mx size) true x out2 tt in let s1 := chosen default_settings r1 in let s2 := chosen default_settings r2 in let y1 := left_by r1 in
  let y2 := left_by r2 in
  (forall d n z, size d n = ROk z -> 0 <= z /\ z <= usize_max v) /\ be_transform_bc1_auto (big_endian_cpu debug junk) v (pure mx size) false x out1 tt = Ok (ROk s1, y1,
  tt) /\ be_transform_bc1_auto (big_endian_cpu debug junk) v (pure mx size) true x out2 tt = Ok (ROk s2, y2, tt) /\ y1 <> x.
Proof. met_auto. Qed.

(** C74, BC1: the search always returns; it fails exactly when the estimator fails or its scratch memory cannot be had. *)
Theorem C74_bc1_estimator_errors : forall (St Er : Type) (debug : bool) (junk : byte) (v : env) (e : estimator St Er) (all : bool) (x out : list byte) (st : St),
  zlen x mod 8 = 0 -> zlen x <= zlen out ->
  exists r y st' log, be_transform_bc1_auto (big_endian_cpu debug junk) v e all x out st = Ok (r, y, st') /\
    be_transform_bc1_auto (big_endian_cpu debug junk) v (logging e) all x out (st, []) = Ok (r, y, (st', log)) /\
    match r with
    | ROk _ => Forall (fun q => exists z, answer q = ROk z) log
    | RErr (DetermineBestTransform (SizeEstimationError e1)) =>
        exists before q, log = before ++ [q] /\ answer q = RErr e1 /\ Forall (fun q => exists z, answer q = ROk z) before
    | RErr (DetermineBestTransform AllocateError) => exists n, log = [AskedMax (zlen x / 2) (ROk n)] /\ alloc_ok v n = false
    | RErr _ => False
    end.
Proof. intros St Er d j v e all x out st. exact (be_lC19_bc1_estimator_errors St Er (big_endian_cpu d j) v e all x out st (big_endian_ok d j)). Qed.
Print Assumptions C74_bc1_estimator_errors.
(** two blocks, an estimator that fails at the third question *)
Example C74_bc1_estimator_errors_met :
  let St := Z in let Er := unit in let debug := true in let junk := x5a in let v := roomy in let e := third_fails in let all := true in let x := texture 16 in let out :=
  x ++ [x00] in let st := 0 in
  zlen x mod 8 = 0 /\ zlen x <= zlen out.
Proof. met_auto. Qed.

(** C74, BC1: what the estimator is asked, in order. *)
Theorem C74_bc1_estimator_calls : forall (St Er : Type) (debug : bool) (junk : byte) (v : env) (e : estimator St Er) (all : bool) (x out : list byte) (st : St),
  zlen x mod 8 = 0 -> zlen x <= zlen out ->
  exists r y st' a rest, be_transform_bc1_auto (big_endian_cpu debug junk) v (logging e) all x out (st, []) = Ok (r, y, (st', AskedMax (zlen x / 2) a :: rest)) /\
    match a with
    | RErr _ => rest = []
    | ROk scratch => exists seen, Forall2 (fun d q => exists ans, q = AskedSize d scratch ans) seen rest /\
        exists unseen, flat_map (be_bc1_shown x) (tried all) = seen ++ unseen /\
          ((exists s, r = ROk s) -> unseen = [])
    end.
Proof. intros St Er d j v e all x out st. exact (be_lC50_bc1_estimator_calls St Er (big_endian_cpu d j) v e all x out st (big_endian_ok d j)). Qed.
Print Assumptions C74_bc1_estimator_calls.
(** two blocks, an estimator that fails at the third question *)
Example C74_bc1_estimator_calls_met :
  let St := Z in let Er := unit in let debug := true in let junk := x5a in let v := roomy in let e := third_fails in let all := true in let x := texture 16 in let out :=
  x ++ [x00] in let st := 0 in
  zlen x mod 8 = 0 /\ zlen x <= zlen out.
Proof. met_auto. Qed.

(** C74, BC1: lengths are checked before anything is written. *)
Theorem C74_bc1_auto_validation : forall (St Er : Type) (debug : bool) (junk : byte) (v : env) (e : estimator St Er) (all : bool) (x out : list byte) (st : St),
  (zlen x mod 8 <> 0 -> be_transform_bc1_auto (big_endian_cpu debug junk) v e all x out st = Ok (RErr (AutoInvalidLength (zlen x)), out, st)) /\
  (zlen x mod 8 = 0 -> zlen out < zlen x -> be_transform_bc1_auto (big_endian_cpu debug junk) v e all x out st = Ok (RErr (AutoOutputBufferTooSmall (zlen x) (zlen out)), out, st)) /\
  (zlen x mod 8 = 0 -> zlen x <= zlen out -> forall r y st', be_transform_bc1_auto (big_endian_cpu debug junk) v e all x out st = Ok (RErr r, y, st') -> exists d, r = DetermineBestTransform d).
Proof. intros St Er d j v. exact (be_lC15_bc1_auto_validation St Er (big_endian_cpu d j) v). Qed.
Print Assumptions C74_bc1_auto_validation.

(** C74, BC1: whatever the estimator answers, the settings returned restore the texture. *)
Theorem C74_bc1_auto_lossless : forall (St Er : Type) (d1 d2 : bool) (j1 j2 : byte) (v : env) (e : estimator St Er) (all : bool) (x out out2 : list byte) (st st' : St) (s : settings) (y : list byte),
  be_transform_bc1_auto (big_endian_cpu d1 j1) v e all x out st = Ok (ROk s, y, st') -> zlen x <= zlen out2 ->
  exists z, be_untransform_bc1 (big_endian_cpu d2 j2) s (firstn (List.length x) y) out2 = Ok (ROk tt, z) /\ firstn (List.length x) z = x.
Proof. exact be_lC21_bc1_auto_lossless. Qed.
Print Assumptions C74_bc1_auto_lossless.
(** two blocks, an estimator with a state *)
Example C74_bc1_auto_lossless_met :
  let St := Z in let Er := unit in let d1 := true in let d2 := false in let j1 := x01 in let j2 := x02 in let v := roomy in let e := counts in let all := true in let x :=
  texture 16 in let out := texture 16 in let out2 := x ++ [x00] in let st := 5 in let r := be_transform_bc1_auto (big_endian_cpu d1 j1) v e all x out st in let st' :=
  state_of 0 r in let s := chosen default_settings r in let y := left_by r in
  be_transform_bc1_auto (big_endian_cpu d1 j1) v e all x out st = Ok (ROk s, y, st') /\ zlen x <= zlen out2 /\ st' <> st /\ y <> x.
Proof. met_auto. Qed.

(** a search, and how often the estimator was asked *)
Example C74_bc1_example : let x := map (fun i => lo8 (i * 37 + 11)) (zseq 0 16) in
  exists s y log, zlen x mod 8 = 0 /\
    be_transform_bc1_auto (big_endian_cpu true x00) (Env (2 ^ 64 - 1) (fun _ => true)) (logging (pure (fun _ => ROk 0) (fun d _ => ROk (fold_right Z.add 0 (map b2z d)) : result Z unit))) false x x (tt, []) = Ok (ROk s, y, (tt, log)) /\
    y <> x /\ List.length log = 5%nat.
Proof. cbv zeta. do 3 eexists. split; [reflexivity|]. split; [vm_compute; reflexivity|]. split; [discriminate|reflexivity]. Qed.

(** C74, BC2: with a deterministic estimator, the settings returned are a candidate whose estimate is smallest among all candidates, what is estimated being the big-endian layout; the output is what the big-endian transform with these settings writes. *)
Theorem C74_bc2_auto_optimal : forall (Er : Type) (debug : bool) (junk : byte) (v : env) (mx : Z -> result Z Er) (size : list byte -> Z -> result Z Er)
    (all : bool) (x out : list byte) (s : settings) (y : list byte),
  (forall d n z, size d n = ROk z -> 0 <= z /\ z <= usize_max v) ->
  be_transform_bc2_auto (big_endian_cpu debug junk) v (pure mx size) all x out tt = Ok (ROk s, y, tt) ->
  candidate all (decorrelation_mode s) /\ be_transform_bc2 (big_endian_cpu debug junk) s x out = Ok (ROk tt, y) /\
  exists scratch z, mx (zlen x / 4) = ROk scratch /\ total_size (fun d => size d scratch) (be_bc2_shown x s) = ROk z /\
    forall s', candidate all (decorrelation_mode s') -> exists z', total_size (fun d => size d scratch) (be_bc2_shown x s') = ROk z' /\ z <= z'.
Proof. intros Er d j v mx size all x out s y. exact (be_lC17_bc2_auto_optimal Er (big_endian_cpu d j) v mx size all x out s y (big_endian_ok d j)). Qed.
Print Assumptions C74_bc2_auto_optimal.
(** two blocks, all modes, an estimator that adds up the bytes *)
Example C74_bc2_auto_optimal_met :
  let Er := unit in let debug := true in let junk := x5a in let v := roomy in let mx := twice in let size := byte_sum in let all := true in let x := texture 32 in let out
  := texture 32 in let s := chosen default_settings (be_transform_bc2_auto (big_endian_cpu debug junk) v (pure mx size) all x out tt) in let y := left_by
  (be_transform_bc2_auto (big_endian_cpu debug junk) v (pure mx size) all x out tt) in
  (forall d n z, size d n = ROk z -> 0 <= z /\ z <= usize_max v) /\ be_transform_bc2_auto (big_endian_cpu debug junk) v (pure mx size) all x out tt = Ok (ROk s, y, tt) /\
  y <> x.
Proof. met_auto. Qed.

(** C74, BC2: among the candidates with the smallest estimate the first one in the test order is returned. *)
Theorem C74_bc2_auto_first : forall (Er : Type) (debug : bool) (junk : byte) (v : env) (mx : Z -> result Z Er) (size : list byte -> Z -> result Z Er)
    (all : bool) (x out : list byte) (s : settings) (y : list byte),
  (forall d n z, size d n = ROk z -> 0 <= z /\ z <= usize_max v) ->
  be_transform_bc2_auto (big_endian_cpu debug junk) v (pure mx size) all x out tt = Ok (ROk s, y, tt) ->
  exists scratch z, mx (zlen x / 4) = ROk scratch /\ total_size (fun d => size d scratch) (be_bc2_shown x s) = ROk z /\
    (z < usize_max v -> exists earlier later, tried all = earlier ++ s :: later /\
      forall s', In s' earlier -> exists z', total_size (fun d => size d scratch) (be_bc2_shown x s') = ROk z' /\ z < z').
Proof. intros Er d j v mx size all x out s y. exact (be_lC17_bc2_auto_first Er (big_endian_cpu d j) v mx size all x out s y (big_endian_ok d j)). Qed.
Print Assumptions C74_bc2_auto_first.
(** two blocks, all modes, an estimator that adds up the bytes *)
Example C74_bc2_auto_first_met :
  let Er := unit in let debug := true in let junk := x5a in let v := roomy in let mx := twice in let size := byte_sum in let all := true in let x := texture 32 in let out
  := texture 32 in let s := chosen default_settings (be_transform_bc2_auto (big_endian_cpu debug junk) v (pure mx size) all x out tt) in let y := left_by
  (be_transform_bc2_auto (big_endian_cpu debug junk) v (pure mx size) all x out tt) in
  (forall d n z, size d n = ROk z -> 0 <= z /\ z <= usize_max v) /\ be_transform_bc2_auto (big_endian_cpu debug junk) v (pure mx size) all x out tt = Ok (ROk s, y, tt) /\
  y <> x.
Proof. met_auto. Qed.

(** C74, BC2: the search over all candidates never ends with a larger estimate than the fast one. *)
Theorem C74_bc2_ultra_never_worse : forall (Er : Type) (debug : bool) (junk : byte) (v : env) (mx : Z -> result Z Er) (size : list byte -> Z -> result Z Er)
    (x out1 out2 : list byte) (s1 s2 : settings) (y1 y2 : list byte),
  (forall d n z, size d n = ROk z -> 0 <= z /\ z <= usize_max v) ->
  be_transform_bc2_auto (big_endian_cpu debug junk) v (pure mx size) false x out1 tt = Ok (ROk s1, y1, tt) ->
  be_transform_bc2_auto (big_endian_cpu debug junk) v (pure mx size) true x out2 tt = Ok (ROk s2, y2, tt) ->
  exists scratch z1 z2, mx (zlen x / 4) = ROk scratch /\
    total_size (fun d => size d scratch) (be_bc2_shown x s1) = ROk z1 /\ total_size (fun d => size d scratch) (be_bc2_shown x s2) = ROk z2 /\ z2 <= z1.
Proof. intros Er d j v mx size x out1 out2 s1 s2 y1 y2. exact (be_lC20_bc2_ultra_never_worse Er (big_endian_cpu d j) v mx size x out1 out2 s1 s2 y1 y2 (big_endian_ok d j)). Qed.
Print Assumptions C74_bc2_ultra_never_worse.
(** two blocks *)
Example C74_bc2_ultra_never_worse_met :
  let Er := unit in let debug := true in let junk := x5a in let v := roomy in let mx := twice in let size := byte_sum in let x := texture 32 in let out1 := texture 32 in
  let out2 := x ++ [x00] in let r1 := be_transform_bc2_auto (big_endian_cpu debug junk) v (pure mx size) false x out1 tt in let r2 := be_transform_bc2_auto
  (big_endian_cpu debug junk) v (pure mx size) true x out2 tt in let s1 := chosen default_settings r1 in let s2 := chosen default_settings r2 in let y1 := left_by r1 in
  let y2 := left_by r2 in
  (forall d n z, size d n = ROk z -> 0 <= z /\ z <= usize_max v) /\ be_transform_bc2_auto (big_endian_cpu debug junk) v (pure mx size) false x out1 tt = Ok (ROk s1, y1,
  tt) /\ be_transform_bc2_auto (big_endian_cpu debug junk) v (pure mx size) true x out2 tt = Ok (ROk s2, y2, tt) /\ y1 <> x.
Proof. met_auto. Qed.

(** C74, BC2: the search always returns; it fails exactly when the estimator fails or its scratch memory cannot be had. *)
Theorem C74_bc2_estimator_errors : forall (St Er : Type) (debug : bool) (junk : byte) (v : env) (e : estimator St Er) (all : bool) (x out : list byte) (st : St),
  zlen x mod 16 = 0 -> zlen x <= zlen out ->
  exists r y st' log, be_transform_bc2_auto (big_endian_cpu debug junk) v e all x out st = Ok (r, y, st') /\
    be_transform_bc2_auto (big_endian_cpu debug junk) v (logging e) all x out (st, []) = Ok (r, y, (st', log)) /\
    match r with
    | ROk _ => Forall (fun q => exists z, answer q = ROk z) log
    | RErr (DetermineBestTransform (SizeEstimationError e1)) =>
        exists before q, log = before ++ [q] /\ answer q = RErr e1 /\ Forall (fun q => exists z, answer q = ROk z) before
    | RErr (DetermineBestTransform AllocateError) => exists n, log = [AskedMax (zlen x / 4) (ROk n)] /\ alloc_ok v n = false
    | RErr _ => False
    end.
Proof. intros St Er d j v e all x out st. exact (be_lC19_bc2_estimator_errors St Er (big_endian_cpu d j) v e all x out st (big_endian_ok d j)). Qed.
Print Assumptions C74_bc2_estimator_errors.
(** two blocks, an estimator that fails at the third question *)
Example C74_bc2_estimator_errors_met :
  let St := Z in let Er := unit in let debug := true in let junk := x5a in let v := roomy in let e := third_fails in let all := true in let x := texture 32 in let out :=
  x ++ [x00] in let st := 0 in
  zlen x mod 16 = 0 /\ zlen x <= zlen out.
Proof. met_auto. Qed.

(** C74, BC2: what the estimator is asked, in order. *)
Theorem C74_bc2_estimator_calls : forall (St Er : Type) (debug : bool) (junk : byte) (v : env) (e : estimator St Er) (all : bool) (x out : list byte) (st : St),
  zlen x mod 16 = 0 -> zlen x <= zlen out ->
  exists r y st' a rest, be_transform_bc2_auto (big_endian_cpu debug junk) v (logging e) all x out (st, []) = Ok (r, y, (st', AskedMax (zlen x / 4) a :: rest)) /\
    match a with
    | RErr _ => rest = []
    | ROk scratch => exists seen, Forall2 (fun d q => exists ans, q = AskedSize d scratch ans) seen rest /\
        exists unseen, flat_map (be_bc2_shown x) (tried all) = seen ++ unseen /\
          ((exists s, r = ROk s) -> unseen = [])
    end.
Proof. intros St Er d j v e all x out st. exact (be_lC50_bc2_estimator_calls St Er (big_endian_cpu d j) v e all x out st (big_endian_ok d j)). Qed.
Print Assumptions C74_bc2_estimator_calls.
(** two blocks, an estimator that fails at the third question *)
Example C74_bc2_estimator_calls_met :
  let St := Z in let Er := unit in let debug := true in let junk := x5a in let v := roomy in let e := third_fails in let all := true in let x := texture 32 in let out :=
  x ++ [x00] in let st := 0 in
  zlen x mod 16 = 0 /\ zlen x <= zlen out.
Proof. met_auto. Qed.

(** C74, BC2: lengths are checked before anything is written. *)
Theorem C74_bc2_auto_validation : forall (St Er : Type) (debug : bool) (junk : byte) (v : env) (e : estimator St Er) (all : bool) (x out : list byte) (st : St),
  (zlen x mod 16 <> 0 -> be_transform_bc2_auto (big_endian_cpu debug junk) v e all x out st = Ok (RErr (AutoInvalidLength (zlen x)), out, st)) /\
  (zlen x mod 16 = 0 -> zlen out < zlen x -> be_transform_bc2_auto (big_endian_cpu debug junk) v e all x out st = Ok (RErr (AutoOutputBufferTooSmall (zlen x) (zlen out)), out, st)) /\
  (zlen x mod 16 = 0 -> zlen x <= zlen out -> forall r y st', be_transform_bc2_auto (big_endian_cpu debug junk) v e all x out st = Ok (RErr r, y, st') -> exists d, r = DetermineBestTransform d).
Proof. intros St Er d j v. exact (be_lC15_bc2_auto_validation St Er (big_endian_cpu d j) v). Qed.
Print Assumptions C74_bc2_auto_validation.

(** C74, BC2: whatever the estimator answers, the settings returned restore the texture. *)
Theorem C74_bc2_auto_lossless : forall (St Er : Type) (d1 d2 : bool) (j1 j2 : byte) (v : env) (e : estimator St Er) (all : bool) (x out out2 : list byte) (st st' : St) (s : settings) (y : list byte),
  be_transform_bc2_auto (big_endian_cpu d1 j1) v e all x out st = Ok (ROk s, y, st') -> zlen x <= zlen out2 ->
  exists z, be_untransform_bc2 (big_endian_cpu d2 j2) s (firstn (List.length x) y) out2 = Ok (ROk tt, z) /\ firstn (List.length x) z = x.
Proof. exact be_lC21_bc2_auto_lossless. Qed.
Print Assumptions C74_bc2_auto_lossless.
(** two blocks, an estimator with a state *)
Example C74_bc2_auto_lossless_met :
  let St := Z in let Er := unit in let d1 := true in let d2 := false in let j1 := x01 in let j2 := x02 in let v := roomy in let e := counts in let all := true in let x :=
  texture 32 in let out := texture 32 in let out2 := x ++ [x00] in let st := 5 in let r := be_transform_bc2_auto (big_endian_cpu d1 j1) v e all x out st in let st' :=
  state_of 0 r in let s := chosen default_settings r in let y := left_by r in
  be_transform_bc2_auto (big_endian_cpu d1 j1) v e all x out st = Ok (ROk s, y, st') /\ zlen x <= zlen out2 /\ st' <> st /\ y <> x.
Proof. met_auto. Qed.

Example C74_bc2_example : let x := map (fun i => lo8 (i * 37 + 11)) (zseq 0 32) in
  exists s y, zlen x mod 16 = 0 /\
    be_transform_bc2_auto (big_endian_cpu true x00) (Env (2 ^ 64 - 1) (fun _ => true)) (pure (fun _ => ROk 0) (fun d _ => ROk (fold_right Z.add 0 (map b2z d)) : result Z unit)) false x x tt = Ok (ROk s, y, tt) /\ y <> x.
Proof. cbv zeta. do 2 eexists. split; [reflexivity|]. split; [vm_compute; reflexivity|]. discriminate. Qed.

(** C74, BC3: with a deterministic estimator, the settings returned are a candidate whose estimate is smallest among all candidates, what is estimated being the big-endian layout; the output is what the big-endian transform with these settings writes. *)
Theorem C74_bc3_auto_optimal : forall (Er : Type) (debug : bool) (junk : byte) (v : env) (mx : Z -> result Z Er) (size : list byte -> Z -> result Z Er)
    (all : bool) (x out : list byte) (s : settings3) (y : list byte),
  (forall d n z, size d n = ROk z -> 0 <= z /\ 2 * z <= usize_max v) ->
  be_transform_bc3_auto (big_endian_cpu debug junk) v (pure mx size) all x out tt = Ok (ROk s, y, tt) ->
  candidate all (decorrelation_mode3 s) /\ be_transform_bc3 (big_endian_cpu debug junk) s x out = Ok (ROk tt, y) /\
  exists scratch z, mx (zlen x / 4) = ROk scratch /\ total_size (fun d => size d scratch) (be_bc3_shown x s) = ROk z /\
    forall s', candidate all (decorrelation_mode3 s') -> exists z', total_size (fun d => size d scratch) (be_bc3_shown x s') = ROk z' /\ z <= z'.
Proof. intros Er d j v mx size all x out s y. exact (be_lC18_bc3_auto_optimal Er (big_endian_cpu d j) v mx size all x out s y (big_endian_ok d j)). Qed.
Print Assumptions C74_bc3_auto_optimal.
(** two blocks, all modes, an estimator that adds up the bytes *)
Example C74_bc3_auto_optimal_met :
  let Er := unit in let debug := true in let junk := x5a in let v := roomy in let mx := twice in let size := byte_sum in let all := true in let x := texture 32 in let out
  := texture 32 in let s := chosen default_settings3 (be_transform_bc3_auto (big_endian_cpu debug junk) v (pure mx size) all x out tt) in let y := left_by
  (be_transform_bc3_auto (big_endian_cpu debug junk) v (pure mx size) all x out tt) in
  (forall d n z, size d n = ROk z -> 0 <= z /\ 2 * z <= usize_max v) /\ be_transform_bc3_auto (big_endian_cpu debug junk) v (pure mx size) all x out tt = Ok (ROk s, y,
  tt) /\ y <> x.
Proof. met_auto. Qed.

(** C74, BC3: among the candidates with the smallest estimate the first one in the test order is returned. *)
Theorem C74_bc3_auto_first : forall (Er : Type) (debug : bool) (junk : byte) (v : env) (mx : Z -> result Z Er) (size : list byte -> Z -> result Z Er)
    (all : bool) (x out : list byte) (s : settings3) (y : list byte),
  (forall d n z, size d n = ROk z -> 0 <= z /\ 2 * z <= usize_max v) ->
  be_transform_bc3_auto (big_endian_cpu debug junk) v (pure mx size) all x out tt = Ok (ROk s, y, tt) ->
  exists scratch z, mx (zlen x / 4) = ROk scratch /\ total_size (fun d => size d scratch) (be_bc3_shown x s) = ROk z /\
    (z < usize_max v -> exists earlier later, tried3 all = earlier ++ s :: later /\
      forall s', In s' earlier -> exists z', total_size (fun d => size d scratch) (be_bc3_shown x s') = ROk z' /\ z < z').
Proof. intros Er d j v mx size all x out s y. exact (be_lC18_bc3_auto_first Er (big_endian_cpu d j) v mx size all x out s y (big_endian_ok d j)). Qed.
Print Assumptions C74_bc3_auto_first.
(** two blocks, all modes, an estimator that adds up the bytes *)
Example C74_bc3_auto_first_met :
  let Er := unit in let debug := true in let junk := x5a in let v := roomy in let mx := twice in let size := byte_sum in let all := true in let x := texture 32 in let out
  := texture 32 in let s := chosen default_settings3 (be_transform_bc3_auto (big_endian_cpu debug junk) v (pure mx size) all x out tt) in let y := left_by
  (be_transform_bc3_auto (big_endian_cpu debug junk) v (pure mx size) all x out tt) in
  (forall d n z, size d n = ROk z -> 0 <= z /\ 2 * z <= usize_max v) /\ be_transform_bc3_auto (big_endian_cpu debug junk) v (pure mx size) all x out tt = Ok (ROk s, y,
  tt) /\ y <> x.
Proof. met_auto. Qed.

(** C74, BC3: the search over all candidates never ends with a larger estimate than the fast one. *)
Theorem C74_bc3_ultra_never_worse : forall (Er : Type) (debug : bool) (junk : byte) (v : env) (mx : Z -> result Z Er) (size : list byte -> Z -> result Z Er)
    (x out1 out2 : list byte) (s1 s2 : settings3) (y1 y2 : list byte),
  (forall d n z, size d n = ROk z -> 0 <= z /\ 2 * z <= usize_max v) ->
  be_transform_bc3_auto (big_endian_cpu debug junk) v (pure mx size) false x out1 tt = Ok (ROk s1, y1, tt) ->
  be_transform_bc3_auto (big_endian_cpu debug junk) v (pure mx size) true x out2 tt = Ok (ROk s2, y2, tt) ->
  exists scratch z1 z2, mx (zlen x / 4) = ROk scratch /\
    total_size (fun d => size d scratch) (be_bc3_shown x s1) = ROk z1 /\ total_size (fun d => size d scratch) (be_bc3_shown x s2) = ROk z2 /\ z2 <= z1.
Proof. intros Er d j v mx size x out1 out2 s1 s2 y1 y2. exact (be_lC20_bc3_ultra_never_worse Er (big_endian_cpu d j) v mx size x out1 out2 s1 s2 y1 y2 (big_endian_ok d j)). Qed.
Print Assumptions C74_bc3_ultra_never_worse.
(** two blocks *)
Example C74_bc3_ultra_never_worse_met :
  let Er := unit in let debug := true in let junk := x5a in let v := roomy in let mx := twice in let size := byte_sum in let x := texture 32 in let out1 := texture 32 in
  let out2 := x ++ [x00] in let r1 := be_transform_bc3_auto (big_endian_cpu debug junk) v (pure mx size) false x out1 tt in let r2 := be_transform_bc3_auto
  (big_endian_cpu debug junk) v (pure mx size) true x out2 tt in let s1 := chosen default_settings3 r1 in let s2 := chosen default_settings3 r2 in let y1 := left_by r1 in
  let y2 := left_by r2 in
  (forall d n z, size d n = ROk z -> 0 <= z /\ 2 * z <= usize_max v) /\ be_transform_bc3_auto (big_endian_cpu debug junk) v (pure mx size) false x out1 tt = Ok (ROk s1,
  y1, tt) /\ be_transform_bc3_auto (big_endian_cpu debug junk) v (pure mx size) true x out2 tt = Ok (ROk s2, y2, tt) /\ y1 <> x.
Proof. met_auto. Qed.

(** C74, BC3: the search always returns; it fails exactly when the estimator fails or its scratch memory cannot be had. *)
Theorem C74_bc3_estimator_errors : forall (St Er : Type) (debug : bool) (junk : byte) (v : env) (e : estimator St Er) (all : bool) (x out : list byte) (st : St),
  (forall st d n z st', estimate_compressed_size e st d n = (ROk z, st') -> 2 * z <= usize_max v) -> zlen x mod 16 = 0 -> zlen x <= zlen out ->
  exists r y st' log, be_transform_bc3_auto (big_endian_cpu debug junk) v e all x out st = Ok (r, y, st') /\
    be_transform_bc3_auto (big_endian_cpu debug junk) v (logging e) all x out (st, []) = Ok (r, y, (st', log)) /\
    match r with
    | ROk _ => Forall (fun q => exists z, answer q = ROk z) log
    | RErr (DetermineBestTransform (SizeEstimationError e1)) =>
        exists before q, log = before ++ [q] /\ answer q = RErr e1 /\ Forall (fun q => exists z, answer q = ROk z) before
    | RErr (DetermineBestTransform AllocateError) => exists n, log = [AskedMax (zlen x / 4) (ROk n)] /\ alloc_ok v n = false
    | RErr _ => False
    end.
Proof. intros St Er d j v e all x out st. exact (be_lC19_bc3_estimator_errors St Er (big_endian_cpu d j) v e all x out st (big_endian_ok d j)). Qed.
Print Assumptions C74_bc3_estimator_errors.
(** two blocks, an estimator that fails at the third question *)
Example C74_bc3_estimator_errors_met :
  let St := Z in let Er := unit in let debug := true in let junk := x5a in let v := roomy in let e := third_fails in let all := true in let x := texture 32 in let out :=
  x ++ [x00] in let st := 0 in
  (forall st d n z st', estimate_compressed_size e st d n = (ROk z, st') -> 2 * z <= usize_max v) /\ zlen x mod 16 = 0 /\ zlen x <= zlen out.
Proof. met_auto. Qed.

(** C74, BC3: what the estimator is asked, in order. *)
Theorem C74_bc3_estimator_calls : forall (St Er : Type) (debug : bool) (junk : byte) (v : env) (e : estimator St Er) (all : bool) (x out : list byte) (st : St),
  (forall st d n z st', estimate_compressed_size e st d n = (ROk z, st') -> 2 * z <= usize_max v) -> zlen x mod 16 = 0 -> zlen x <= zlen out ->
  exists r y st' a rest, be_transform_bc3_auto (big_endian_cpu debug junk) v (logging e) all x out (st, []) = Ok (r, y, (st', AskedMax (zlen x / 4) a :: rest)) /\
    match a with
    | RErr _ => rest = []
    | ROk scratch => exists seen, Forall2 (fun d q => exists ans, q = AskedSize d scratch ans) seen rest /\
        exists unseen, flat_map (be_bc3_shown x) (tried3 all) = seen ++ unseen /\
          ((exists s, r = ROk s) -> unseen = [])
    end.
Proof. intros St Er d j v e all x out st. exact (be_lC50_bc3_estimator_calls St Er (big_endian_cpu d j) v e all x out st (big_endian_ok d j)). Qed.
Print Assumptions C74_bc3_estimator_calls.
(** two blocks, an estimator that fails at the third question *)
Example C74_bc3_estimator_calls_met :
  let St := Z in let Er := unit in let debug := true in let junk := x5a in let v := roomy in let e := third_fails in let all := true in let x := texture 32 in let out :=
  x ++ [x00] in let st := 0 in
  (forall st d n z st', estimate_compressed_size e st d n = (ROk z, st') -> 2 * z <= usize_max v) /\ zlen x mod 16 = 0 /\ zlen x <= zlen out.
Proof. met_auto. Qed.

(** C74, BC3: lengths are checked before anything is written. *)
Theorem C74_bc3_auto_validation : forall (St Er : Type) (debug : bool) (junk : byte) (v : env) (e : estimator St Er) (all : bool) (x out : list byte) (st : St),
  (zlen x mod 16 <> 0 -> be_transform_bc3_auto (big_endian_cpu debug junk) v e all x out st = Ok (RErr (AutoInvalidLength (zlen x)), out, st)) /\
  (zlen x mod 16 = 0 -> zlen out < zlen x -> be_transform_bc3_auto (big_endian_cpu debug junk) v e all x out st = Ok (RErr (AutoOutputBufferTooSmall (zlen x) (zlen out)), out, st)) /\
  (zlen x mod 16 = 0 -> zlen x <= zlen out -> forall r y st', be_transform_bc3_auto (big_endian_cpu debug junk) v e all x out st = Ok (RErr r, y, st') -> exists d, r = DetermineBestTransform d).
Proof. intros St Er d j v. exact (be_lC15_bc3_auto_validation St Er (big_endian_cpu d j) v). Qed.
Print Assumptions C74_bc3_auto_validation.

(** C74, BC3: whatever the estimator answers, the settings returned restore the texture. *)
Theorem C74_bc3_auto_lossless : forall (St Er : Type) (d1 d2 : bool) (j1 j2 : byte) (v : env) (e : estimator St Er) (all : bool) (x out out2 : list byte) (st st' : St) (s : settings3) (y : list byte),
  (forall st d n z st', estimate_compressed_size e st d n = (ROk z, st') -> 2 * z <= usize_max v) ->
  be_transform_bc3_auto (big_endian_cpu d1 j1) v e all x out st = Ok (ROk s, y, st') -> zlen x <= zlen out2 ->
  exists z, be_untransform_bc3 (big_endian_cpu d2 j2) s (firstn (List.length x) y) out2 = Ok (ROk tt, z) /\ firstn (List.length x) z = x.
Proof. exact be_lC21_bc3_auto_lossless. Qed.
Print Assumptions C74_bc3_auto_lossless.
(** two blocks, an estimator with a state *)
Example C74_bc3_auto_lossless_met :
  let St := Z in let Er := unit in let d1 := true in let d2 := false in let j1 := x01 in let j2 := x02 in let v := roomy in let e := counts in let all := true in let x :=
  texture 32 in let out := texture 32 in let out2 := x ++ [x00] in let st := 5 in let r := be_transform_bc3_auto (big_endian_cpu d1 j1) v e all x out st in let st' :=
  state_of 0 r in let s := chosen default_settings3 r in let y := left_by r in
  (forall st d n z st', estimate_compressed_size e st d n = (ROk z, st') -> 2 * z <= usize_max v) /\ be_transform_bc3_auto (big_endian_cpu d1 j1) v e all x out st = Ok
  (ROk s, y, st') /\ zlen x <= zlen out2 /\ st' <> st /\ y <> x.
Proof. met_auto. Qed.

Example C74_bc3_example : let x := map (fun i => lo8 (i * 37 + 11)) (zseq 0 32) in
  exists s y, zlen x mod 16 = 0 /\
    be_transform_bc3_auto (big_endian_cpu true x00) (Env (2 ^ 64 - 1) (fun _ => true)) (pure (fun _ => ROk 0) (fun d _ => ROk (fold_right Z.add 0 (map b2z d)) : result Z unit)) false x x tt = Ok (ROk s, y, tt) /\ y <> x.
Proof. cbv zeta. do 2 eexists. split; [reflexivity|]. split; [vm_compute; reflexivity|]. discriminate. Qed.

