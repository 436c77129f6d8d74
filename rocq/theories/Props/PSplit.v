(** C42: splitting colour endpoints. *)
From Verif Require Import Base.Bytes Base.Res Model.Kernel Model.GenSplit565 Spec.Layout Proofs.KSplit565 Proofs.Split565Facts Proofs.SplitExact Props.Cases.
Open Scope string_scope.
Open Scope list_scope.
Open Scope Z_scope.

(** [split_color_endpoints] of common/transforms/split_565_color_endpoints/mod.rs *)
Notation split_color_endpoints := common_transforms_split_565_color_endpoints_split_color_endpoints.

(** C42: pairs of colours, anywhere in the input, become all first colours
    followed by all second colours at the wanted place of the output; no other
    byte changes. Debug builds need a pair. The SSE2 and AVX2 routines need 16
    pairs: they form a pointer 64 bytes before the end of the colours (see the
    refutation below), so this is part of the claim. *)
Theorem C42_split_pairs_partial : forall (c : cfg) (before after aux out : list byte) (ps : list (list byte * list byte)) (b : Z),
  cpu_ok c -> (c_debug c = true -> 0 < zlen ps) ->
  (is_x86 c = true -> c_avx512vbmi c = false -> has_sse2 c = true \/ c_avx2 c = true -> 16 <= zlen ps) ->
  Forall (fun '(p, q) => List.length p = 2%nat /\ List.length q = 2%nat) ps -> 0 <= b -> b + 4 * zlen ps <= zlen out ->
  let inp := before ++ List.concat (map (fun '(p, q) => p ++ q) ps) ++ after in
  split_color_endpoints c (Ptr BIn (zlen before)) (Ptr BOut b) (4 * zlen ps) (Mem inp aux out) =
  Ok (Mem inp aux (splice out b (List.concat (map fst ps) ++ List.concat (map snd ps)))).
Proof. exact (fun c before after aux out ps b K D S F B L => split_pairs_run c before ps after aux out b K (conj D S) B F L). Qed.
Print Assumptions C42_split_pairs_partial.

(** C42: the same for any input bytes, in the words of Spec/Layout.v. *)
Theorem C42_split_layout_partial : forall (c : cfg) (inp aux out : list byte) (a b n : Z),
  cpu_ok c -> (c_debug c = true -> 0 < n) ->
  (is_x86 c = true -> c_avx512vbmi c = false -> has_sse2 c = true \/ c_avx2 c = true -> 16 <= n) ->
  0 <= a -> 0 <= b -> 0 <= n -> a + 4 * n <= zlen inp -> b + 4 * n <= zlen out ->
  split_color_endpoints c (Ptr BIn a) (Ptr BOut b) (4 * n) (Mem inp aux out) =
  Ok (Mem inp aux (splice out b (lay [raw 0 2; raw 2 2] (blocks 4 (slice inp a (4 * n)))))).
Proof. exact (fun c inp aux out a b n K D S => split_run c inp aux out a b n K (conj D S)). Qed.
Print Assumptions C42_split_layout_partial.
(** thirteen pairs inside larger buffers, a debug build *)
Example C42_split_layout_partial_met :
  let c := debug_cpu in let inp := texture 60 in let aux := @nil byte in let out := repeat xee 70 in let a := 3 in let b := 7 in let n := 13 in
  cpu_ok c /\ (c_debug c = true -> 0 < n) /\ (is_x86 c = true -> c_avx512vbmi c = false -> has_sse2 c = true \/ c_avx2 c = true -> 16 <= n) /\ 0 <= a /\ 0 <= b /\ 0 <= n
  /\ a + 4 * n <= zlen inp /\ b + 4 * n <= zlen out.
Proof. met. Qed.

(** C42 fails for short arrays on common CPUs: with one pair, the pointer 64
    bytes before the end is outside the array, which Rust leaves undefined. *)
Theorem C42_short_array_refuted : exists (c : cfg) (inp out : list byte) why, cpu_ok c /\ zlen inp = 4 /\ zlen out = 4 /\
  split_color_endpoints c (Ptr BIn 0) (Ptr BOut 0) 4 (Mem inp [] out) = Ub why.
Proof. exact split_short_refuted. Qed.
Print Assumptions C42_short_array_refuted.

(** Exactly when: an SSE2 or AVX2 routine is undefined if the pairs end less than
    64 bytes after the start of the allocation they lie in, and right otherwise;
    the other routines are right for every length. *)
Theorem C42_split_exactly_partial : forall (c : cfg) (inp aux out : list byte) (a b n : Z),
  cpu_ok c -> (c_debug c = true -> 0 < n) -> 0 <= a -> 0 <= b -> 0 <= n -> a + 4 * n <= zlen inp -> b + 4 * n <= zlen out ->
  split_color_endpoints c (Ptr BIn a) (Ptr BOut b) (4 * n) (Mem inp aux out) =
  if is_x86 c && negb (c_avx512vbmi c) && (has_sse2 c || c_avx2 c) && (a + 4 * n <? 64) then Ub "pointer arithmetic out of bounds"
  else Ok (Mem inp aux (splice out b (lay [raw 0 2; raw 2 2] (blocks 4 (slice inp a (4 * n)))))).
Proof. exact split_exactly. Qed.
Print Assumptions C42_split_exactly_partial.
(** one pair, far from the start of its allocation and at the start *)
Example C42_split_exactly_partial_met :
  let c := Cfg false X86_64 false true true true false false false false x00 in let inp := texture 70 in let out := repeat xee 9 in
  cpu_ok c /\ 0 <= 60 /\ 60 + 4 * 1 <= zlen inp /\ 2 + 4 * 1 <= zlen out /\
  is_x86 c && negb (c_avx512vbmi c) && (has_sse2 c || c_avx2 c) && (60 + 4 * 1 <? 64) = false /\
  is_x86 c && negb (c_avx512vbmi c) && (has_sse2 c || c_avx2 c) && (0 + 4 * 1 <? 64) = true.
Proof. cbv zeta. split; [constructor; intros; reflexivity || discriminate|]. repeat apply conj; (reflexivity || (vm_compute; discriminate)). Qed.

Definition sse2_cpu : cfg := Cfg true X86_64 false true false false false false false false x00.
Example C42_case :
  let ps := map (fun i => ([z2b i; x01], [z2b (i + 100); x02])) (zseq 0 20) in
  cpu_ok sse2_cpu /\ 16 <= zlen ps /\ Forall (fun '(p, q) => List.length p = 2%nat /\ List.length q = 2%nat) ps /\
  split_color_endpoints sse2_cpu (Ptr BIn 1) (Ptr BOut 2) 80 (Mem ([xff] ++ List.concat (map (fun '(p, q) => p ++ q) ps)) [] (List.repeat xee 83)) =
  Ok (Mem ([xff] ++ List.concat (map (fun '(p, q) => p ++ q) ps)) []
     ([xee; xee] ++ List.concat (map (fun i => [z2b i; x01]) (zseq 0 20)) ++ List.concat (map (fun i => [z2b (i + 100); x02]) (zseq 0 20)) ++ [xee])).
Proof.
  cbv zeta. split; [constructor; intros; reflexivity || discriminate|]. split; [vm_compute; discriminate|]. split; [|vm_compute; reflexivity].
  rewrite Forall_map. apply Forall_forall. intros. split; reflexivity.
Qed.
