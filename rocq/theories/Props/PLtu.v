(** C45: the bundled size estimator. [matches] is the match counter of the other
    crate, which may be any function with non-negative results. *)
From Verif Require Import Base.Bytes Base.Res Model.Color565 Model.Kernel Model.Transform Model.Auto Model.CApi Model.Ltu
  Spec.Estimator Spec.Ltu Proofs.TransformFacts Proofs.LtuFacts.

(** C45: it asks for no scratch space, never fails, and answers the number of bytes that are not matched, between 0 and the length; 0 for no bytes and for a null pointer. The scratch buffer plays no role. *)
Theorem C45_ltu : forall (matches : list byte -> Z) (st : unit), (forall d, 0 <= matches d) ->
  (forall n, max_compressed_size (ltu matches) st n = (ROk 0, st)) /\
  (forall d scratch, exists z, estimate_compressed_size (ltu matches) st d scratch = (ROk z, st) /\
     0 <= z <= zlen d /\ z = ltu_value matches d) /\
  (forall scratch, ltu_estimate matches None scratch = ROk 0) /\
  (forall scratch, estimate_compressed_size (ltu matches) st [] scratch = (ROk 0, st)).
Proof. exact lC45_ltu. Qed.
Print Assumptions C45_ltu.

(** C45: among inputs of one length, more matches never give a larger answer, and give a smaller one as long as not everything is matched. *)
Theorem C45_order : forall (matches : list byte -> Z) (st : unit) (d d' : list byte) (n n' z z' : Z), (forall d, 0 <= matches d) ->
  estimate_compressed_size (ltu matches) st d n = (ROk z, st) -> estimate_compressed_size (ltu matches) st d' n' = (ROk z', st) ->
  zlen d = zlen d' -> matches d <= matches d' -> z' <= z /\ (matches d < matches d' -> matches d < zlen d -> z' < z).
Proof. exact lC45_order. Qed.
Print Assumptions C45_order.

(** C45: the C callbacks store the same values and return 0; with a null context or a null result pointer they return 1 and store nothing. The estimator made by the C constructor answers the library like the Rust one. *)
Theorem C45_c_wrapper : forall (matches : list byte -> Z) (st : unit), (forall d, 0 <= matches d) ->
  (forall n, ltu_max_compressed_size false n false = (0, Some 0)) /\
  (forall input n, exists z, ltu_estimate matches input n = ROk z /\ ltu_estimate_compressed_size matches false input n false = (0, Some z)) /\
  (forall (null_context null_out : bool) input n, null_context = true \/ null_out = true ->
     ltu_max_compressed_size null_context n null_out = (1, None) /\
     ltu_estimate_compressed_size matches null_context input n null_out = (1, None)) /\
  (forall n z, max_compressed_size (of_c_estimator (dltltu_new_size_estimator matches)) st n = (ROk z, st) <-> max_compressed_size (ltu matches) st n = (ROk z, st)) /\
  (forall d n z, estimate_compressed_size (of_c_estimator (dltltu_new_size_estimator matches)) st d n = (ROk z, st) <->
     estimate_compressed_size (ltu matches) st d n = (ROk z, st)).
Proof. exact lC45_c_wrapper. Qed.
Print Assumptions C45_c_wrapper.

(** C45 with C16: with this estimator the BC1 search always succeeds, whatever the allocator does, and picks settings with the fewest unmatched bytes. *)
Theorem C45_bc1_auto : forall (matches : list byte -> Z) (c : cfg) (v : env) (all : bool) (x out : list byte),
  (forall d, 0 <= matches d) -> cpu_ok c -> (c_debug c = true -> x <> []) -> zlen x mod 8 = 0 -> zlen x <= zlen out -> zlen x <= usize_max v ->
  exists s y, transform_bc1_auto c v (ltu matches) all x out tt = Ok (ROk s, y, tt) /\ transform_bc1 c s x out = Ok (ROk tt, y) /\
    candidate all (decorrelation_mode s) /\
    forall s', candidate all (decorrelation_mode s') ->
      ltu_total matches (bc1_shown x s) <= ltu_total matches (bc1_shown x s').
Proof. exact lC45_bc1_auto. Qed.
Print Assumptions C45_bc1_auto.

(** C45 with C17. The AVX512VL condition is that of C10_bc2_avx512vl_refuted. *)
Theorem C45_bc2_auto : forall (matches : list byte -> Z) (c : cfg) (v : env) (all : bool) (x out : list byte),
  (forall d, 0 <= matches d) -> cpu_ok c -> (c_avx512bw c = true -> c_avx512vl c = true) -> zlen x mod 16 = 0 -> zlen x <= zlen out -> zlen x <= usize_max v ->
  exists s y, transform_bc2_auto c v (ltu matches) all x out tt = Ok (ROk s, y, tt) /\ transform_bc2 c s x out = Ok (ROk tt, y) /\
    candidate all (decorrelation_mode s) /\
    forall s', candidate all (decorrelation_mode s') ->
      ltu_total matches (bc2_shown x s) <= ltu_total matches (bc2_shown x s').
Proof. exact lC45_bc2_auto. Qed.
Print Assumptions C45_bc2_auto.

(** C45 with C18: the overflow of C18_bc3_overflow_refuted cannot happen with this estimator, since no Rust slice is larger than half the address space. *)
Theorem C45_bc3_auto : forall (matches : list byte -> Z) (c : cfg) (v : env) (all : bool) (x out : list byte),
  (forall d, 0 <= matches d) -> cpu_ok c -> (c_debug c = true -> x <> []) -> zlen x mod 16 = 0 -> zlen x <= zlen out -> 2 * zlen x <= usize_max v ->
  exists s y, transform_bc3_auto c v (ltu matches) all x out tt = Ok (ROk s, y, tt) /\ transform_bc3 c s x out = Ok (ROk tt, y) /\
    candidate all (decorrelation_mode3 s) /\
    forall s', candidate all (decorrelation_mode3 s') ->
      ltu_total matches (bc3_shown x s) <= ltu_total matches (bc3_shown x s').
Proof. exact lC45_bc3_auto. Qed.
Print Assumptions C45_bc3_auto.

(** a match counter that counts repeated neighbours: the hypotheses hold, and the
    search finds something better than the default *)
Fixpoint repeats (d : list byte) : Z :=
  match d with a :: (b :: _) as r => (if Byte.eqb a b then 1 else 0) + repeats r | _ => 0 end.
Lemma repeats_nonneg : forall d, 0 <= repeats d.
Proof. induction d as [|a [|b d] IH]; cbn [repeats] in *; [lia|lia|]. destruct (Byte.eqb a b); lia. Qed.
Example C45_case : let x := map (fun i => lo8 (i / 3 * 37)) (zseq 0 32) in
  let c := Cfg true X86_64 false true true true true true true true x00 in let v := Env (2 ^ 64 - 1) (fun _ => false) in
  (forall d, 0 <= repeats d) /\
  estimate_compressed_size (ltu repeats) tt x 0 = (ROk 11, tt) /\
  match transform_bc3_auto c v (ltu repeats) true x x tt with Ok (ROk s, _, _) => settings3_eqb s default_settings3 = false | _ => False end /\
  match transform_bc1_auto c v (ltu repeats) true x x tt with Ok (ROk s, _, _) => True | _ => False end.
Proof.
  cbv zeta. split; [exact repeats_nonneg|]. split; [vm_compute; reflexivity|]. split; [vm_compute; reflexivity|]. vm_compute. exact I.
Qed.
