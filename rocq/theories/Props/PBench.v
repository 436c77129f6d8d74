(** C72: the kernels of the [bench] modules. *)
From Verif Require Import Base.Bytes Base.Res Model.Color565 Model.Kernel Model.GenBenchBc1 Model.GenBenchBc3 Model.Bench
  Spec.YCoCg Spec.Layout Spec.Pack Proofs.TransformFacts Proofs.BenchRun Proofs.BenchFacts Proofs.BenchMore Proofs.PackFacts Props.Cases.
Open Scope string_scope.
Open Scope list_scope.
Open Scope Z_scope.

(** C72: every BC1 transform of the bench module, on a CPU with its features, writes the
    layout that the ordinary transform writes (Spec/Layout.v) and nothing else. *)
Theorem C72_bc1_transforms : forall name needs k, In (name, needs, k) bc1_bench_transforms ->
  forall (c : cfg) (inp aux out : list byte) (a b n : Z), cpu_ok c -> needs c = true ->
  0 <= a -> 0 <= b -> 0 <= n -> a + 8 * n <= zlen inp -> b + 8 * n <= zlen out ->
  k c (Ptr BIn a) (Ptr BOut b) (8 * n) (Mem inp aux out) =
  Ok (Mem inp aux (splice out b (bc1_layout VNone false (slice inp a (8 * n))))).
Proof. intros name needs k H c inp aux out a b n K F. exact (proj1 (Forall_forall _ _) bc1_bench_transforms_run _ H c K F inp aux out a b n). Qed.
Print Assumptions C72_bc1_transforms.
Theorem C72_bc2_transforms : forall name needs k, In (name, needs, k) bc2_bench_transforms ->
  forall (c : cfg) (inp aux out : list byte) (a b n : Z), cpu_ok c -> needs c = true ->
  0 <= a -> 0 <= b -> 0 <= n -> a + 16 * n <= zlen inp -> b + 16 * n <= zlen out ->
  k c (Ptr BIn a) (Ptr BOut b) (16 * n) (Mem inp aux out) =
  Ok (Mem inp aux (splice out b (bc2_layout VNone false (slice inp a (16 * n))))).
Proof. intros name needs k H c inp aux out a b n K F. exact (proj1 (Forall_forall _ _) bc2_bench_transforms_run _ H c K F inp aux out a b n). Qed.
Print Assumptions C72_bc2_transforms.
Theorem C72_bc3_transforms : forall name needs k, In (name, needs, k) bc3_bench_transforms ->
  forall (c : cfg) (inp aux out : list byte) (a b n : Z), cpu_ok c -> needs c = true ->
  0 <= a -> 0 <= b -> 0 <= n -> a + 16 * n <= zlen inp -> b + 16 * n <= zlen out ->
  k c (Ptr BIn a) (Ptr BOut b) (16 * n) (Mem inp aux out) =
  Ok (Mem inp aux (splice out b (bc3_layout VNone false false (slice inp a (16 * n))))).
Proof. intros name needs k H c inp aux out a b n K F. exact (proj1 (Forall_forall _ _) bc3_bench_transforms_run _ H c K F inp aux out a b n). Qed.
Print Assumptions C72_bc3_transforms.

(** C72: every untransform of the bench modules gives back the blocks [x] from their layout. *)
Theorem C72_bc1_untransforms : forall name needs k, In (name, needs, k) bc1_bench_untransforms ->
  forall (c : cfg) (x inp aux out : list byte) (a b n : Z), cpu_ok c -> needs c = true ->
  0 <= a -> 0 <= b -> 0 <= n -> a + 8 * n <= zlen inp -> b + 8 * n <= zlen out ->
  zlen x = 8 * n -> slice inp a (8 * n) = bc1_layout VNone false x ->
  k c (Ptr BIn a) (Ptr BOut b) (8 * n) (Mem inp aux out) = Ok (Mem inp aux (splice out b x)).
Proof. intros name needs k H c x inp aux out a b n K F. exact (proj1 (Forall_forall _ _) bc1_bench_untransforms_run _ H c K F x inp aux out a b n). Qed.
Print Assumptions C72_bc1_untransforms.
Theorem C72_bc2_untransforms : forall name needs k, In (name, needs, k) bc2_bench_untransforms ->
  forall (c : cfg) (x inp aux out : list byte) (a b n : Z), cpu_ok c -> needs c = true ->
  0 <= a -> 0 <= b -> 0 <= n -> a + 16 * n <= zlen inp -> b + 16 * n <= zlen out ->
  zlen x = 16 * n -> slice inp a (16 * n) = bc2_layout VNone false x ->
  k c (Ptr BIn a) (Ptr BOut b) (16 * n) (Mem inp aux out) = Ok (Mem inp aux (splice out b x)).
Proof. intros name needs k H c x inp aux out a b n K F. exact (proj1 (Forall_forall _ _) bc2_bench_untransforms_run _ H c K F x inp aux out a b n). Qed.
Print Assumptions C72_bc2_untransforms.
Theorem C72_bc3_untransforms : forall name needs k, In (name, needs, k) bc3_bench_untransforms ->
  forall (c : cfg) (x inp aux out : list byte) (a b n : Z), cpu_ok c -> needs c = true ->
  0 <= a -> 0 <= b -> 0 <= n -> a + 16 * n <= zlen inp -> b + 16 * n <= zlen out ->
  zlen x = 16 * n -> slice inp a (16 * n) = bc3_layout VNone false false x ->
  k c (Ptr BIn a) (Ptr BOut b) (16 * n) (Mem inp aux out) = Ok (Mem inp aux (splice out b x)).
Proof. intros name needs k H c x inp aux out a b n K F. exact (proj1 (Forall_forall _ _) bc3_bench_untransforms_run _ H c K F x inp aux out a b n). Qed.
Print Assumptions C72_bc3_untransforms.

(** C72: the functions that take one pointer per section, with the sections one after the other. *)
Theorem C72_bc1_separate_pointers : forall (c : cfg) (inp aux out : list byte) (a b n : Z), cpu_ok c -> c_avx512f c && c_sse2 c = true ->
  0 <= a -> 0 <= b -> 0 <= n -> a + 8 * n <= zlen inp -> b + 8 * n <= zlen out ->
  bc1_bench_std_permute_512_unroll_2_with_separate_pointers c (Ptr BIn a) (Ptr BOut b) (Ptr BOut (b + 4 * n)) (8 * n) (Mem inp aux out) =
  Ok (Mem inp aux (splice out b (bc1_layout VNone false (slice inp a (8 * n))))).
Proof. exact bc1_bench_std_permute_512_unroll_2_with_separate_pointers_run. Qed.
Print Assumptions C72_bc1_separate_pointers.
Theorem C72_bc1_components : forall (c : cfg) (x inp aux out : list byte) (a b n : Z), cpu_ok c -> c_avx512f c && c_sse2 c = true ->
  0 <= a -> 0 <= b -> 0 <= n -> a + 8 * n <= zlen inp -> b + 8 * n <= zlen out ->
  zlen x = 8 * n -> slice inp a (8 * n) = bc1_layout VNone false x ->
  bc1_bench_u_std_permute_512_untransform_unroll_2_with_components_intrinsics c (Ptr BOut b) (8 * n) (Ptr BIn (a + 4 * n)) (Ptr BIn a) (Mem inp aux out) =
  Ok (Mem inp aux (splice out b x)).
Proof. exact bc1_bench_u_std_permute_512_untransform_unroll_2_with_components_intrinsics_run. Qed.
Print Assumptions C72_bc1_components.
(** The three BC3 transforms with split alphas; the first needs nothing, the others a CPU; the
    AVX-512 one asserts in debug builds that there is a block. *)
Definition bc3_split_alpha_transforms : list ((cfg -> bool) * (cfg -> Z -> Prop) * (cfg -> ptr -> ptr -> ptr -> ptr -> ptr -> ptr -> Z -> mem -> res mem)) :=
  [((fun _ => true), (fun _ _ => True), bc3_bench_sa_generic_transform_with_split_alphas);
   ((fun c => c_avx2 c && is_x86 c), (fun _ _ => True), bc3_bench_sa_avx2_transform_with_split_alphas);
   ((fun c => c_avx2 c && c_avx512f c && c_avx512vbmi c && c_sse2 c), (fun c n => c_debug c = true -> 0 < n), bc3_bench_sa_avx512_transform_with_split_alphas)].
Theorem C72_bc3_split_alpha_transforms : forall needs pre k, In (needs, pre, k) bc3_split_alpha_transforms ->
  forall (c : cfg) (inp aux out : list byte) (a b n : Z), cpu_ok c -> needs c = true -> pre c n ->
  0 <= a -> 0 <= b -> 0 <= n -> a + 16 * n <= zlen inp -> b + 16 * n <= zlen out ->
  k c (Ptr BIn a) (Ptr BOut b) (Ptr BOut (b + n)) (Ptr BOut (b + 2 * n)) (Ptr BOut (b + 8 * n)) (Ptr BOut (b + 12 * n)) n (Mem inp aux out) =
  Ok (Mem inp aux (splice out b (bc3_layout VNone true false (slice inp a (16 * n))))).
Proof.
  intros needs pre k [E|[E|[E|[]]]]; injection E as <- <- <-; intros c inp aux out a b n K F P.
  - exact (bc3_bench_sa_generic_transform_with_split_alphas_run c inp aux out a b n K F).
  - exact (bc3_bench_sa_avx2_transform_with_split_alphas_run c inp aux out a b n K F).
  - exact (bc3_bench_sa_avx512_transform_with_split_alphas_run c inp aux out a b n K F P).
Qed.
Print Assumptions C72_bc3_split_alpha_transforms.
Theorem C72_bc3_split_alpha_untransforms : forall (c : cfg) (x inp aux out : list byte) (a b n : Z), cpu_ok c ->
  0 <= a -> 0 <= b -> 0 <= n -> a + 16 * n <= zlen inp -> b + 16 * n <= zlen out ->
  zlen x = 16 * n -> slice inp a (16 * n) = bc3_layout VNone true false x ->
  bc3_bench_u_sa_generic_untransform_with_split_alphas c (Ptr BIn a) (Ptr BIn (a + n)) (Ptr BIn (a + 2 * n)) (Ptr BIn (a + 8 * n)) (Ptr BIn (a + 12 * n))
    (Ptr BOut b) n (Mem inp aux out) = Ok (Mem inp aux (splice out b x)) /\
  (c_sse2 c = true ->
   bc3_bench_u_sa_sse2_untransform_with_split_alphas c (Ptr BIn a) (Ptr BIn (a + n)) (Ptr BIn (a + 2 * n)) (Ptr BIn (a + 8 * n)) (Ptr BIn (a + 12 * n))
    (Ptr BOut b) n (Mem inp aux out) = Ok (Mem inp aux (splice out b x))).
Proof.
  intros c x inp aux out a b n K Ha Hb Hn Hi Ho Hx Hs. split; [|intros F].
  - exact (bc3_bench_u_sa_generic_untransform_with_split_alphas_run c x inp aux out a b n K eq_refl Ha Hb Hn Hi Ho Hx Hs).
  - exact (bc3_bench_u_sa_sse2_untransform_with_split_alphas_run c x inp aux out a b n K F Ha Hb Hn Hi Ho Hx Hs).
Qed.
Print Assumptions C72_bc3_split_alpha_untransforms.

(** C72, the endpoint splitters: every one writes all first colours, then all second
    colours, if there are at least as many bytes as one turn of its loop takes. For fewer
    bytes see the refutation below, so this is part of the claim. *)
Theorem C72_splitters_partial : forall name needs least k, In (name, needs, least, k) split_bench ->
  forall (c : cfg) (inp aux out : list byte) (a b n : Z), cpu_ok c -> needs c = true -> least <= 4 * n -> (c_debug c = true -> 0 < n) ->
  0 <= a -> 0 <= b -> 0 <= n -> a + 4 * n <= zlen inp -> b + 4 * n <= zlen out ->
  k c (Ptr BIn a) (Ptr BOut b) (4 * n) (Mem inp aux out) =
  Ok (Mem inp aux (splice out b (lay [raw 0 2; raw 2 2] (blocks 4 (slice inp a (4 * n)))))).
Proof. intros name needs least k H c inp aux out a b n K F. exact (proj1 (Forall_forall _ _) split_bench_run _ H c K F inp aux out a b n). Qed.
Print Assumptions C72_splitters_partial.

(** C72 fails for short arrays: for every splitter with a least number of bytes there are a
    CPU and an array one pair shorter for which its behaviour is undefined (it forms a
    pointer before the array). *)
Definition all_cpu : cfg := Cfg false X86_64 false true true true true true true true x00.
Theorem C72_short_arrays_refuted : forall name needs least k, In (name, needs, least, k) split_bench -> 0 < least ->
  exists c inp out why, cpu_ok c /\ needs c = true /\ zlen inp = least - 4 /\ zlen out = least - 4 /\
  k c (Ptr BIn 0) (Ptr BOut 0) (least - 4) (Mem inp [] out) = Ub why.
Proof.
  assert (KO : cpu_ok all_cpu) by (constructor; intros; reflexivity || discriminate).
  assert (F : Forall (fun '(name, needs, least, k) => 0 < least ->
    needs all_cpu = true /\ zlen (List.repeat x07 (Z.to_nat (least - 4))) = least - 4 /\
    match k all_cpu (Ptr BIn 0) (Ptr BOut 0) (least - 4) (Mem (List.repeat x07 (Z.to_nat (least - 4))) [] (List.repeat x00 (Z.to_nat (least - 4)))) with
    | Ub _ => True | _ => False end) split_bench).
  { repeat (apply Forall_cons || apply Forall_nil); first [intros Z0; exfalso; revert Z0; apply Z.lt_irrefl | intros _; split; [reflexivity|]; split; [reflexivity|]; vm_compute; exact I]. }
  intros name needs least k H L. rewrite Forall_forall in F. specialize (F _ H). cbv beta iota in F. destruct (F L) as (A & B & C).
  destruct (k all_cpu _ _ _ _) as [?|?|why] eqn:E; try contradiction.
  exists all_cpu, (List.repeat x07 (Z.to_nat (least - 4))), (List.repeat x00 (Z.to_nat (least - 4))), why.
  split; [exact KO|]. split; [exact A|]. split; [exact B|]. split; [|exact E]. unfold zlen in *. rewrite repeat_length in *. exact B.
Qed.
Print Assumptions C72_short_arrays_refuted.

(** C72, the two remaining BC1 transforms: they work exactly if the allocation of the input
    goes on far enough after the last full turn of their first loop. *)
Theorem C72_shift_unroll_4_partial : forall (c : cfg) (inp aux out : list byte) (a b n : Z), cpu_ok c ->
  0 <= a -> 0 <= b -> 0 <= n -> a + 8 * n <= zlen inp -> b + 8 * n <= zlen out ->
  if a + 32 * (n / 4) + 24 <=? zlen inp then
    bc1_bench_std_shift_unroll_4 c (Ptr BIn a) (Ptr BOut b) (8 * n) (Mem inp aux out) =
    Ok (Mem inp aux (splice out b (bc1_layout VNone false (slice inp a (8 * n)))))
  else exists why, bc1_bench_std_shift_unroll_4 c (Ptr BIn a) (Ptr BOut b) (8 * n) (Mem inp aux out) = Ub why.
Proof. exact shift_unroll_4_run. Qed.
Print Assumptions C72_shift_unroll_4_partial.
Theorem C72_shift_unroll_8_partial : forall (c : cfg) (inp aux out : list byte) (a b n : Z), cpu_ok c ->
  0 <= a -> 0 <= b -> 0 <= n -> a + 8 * n <= zlen inp -> b + 8 * n <= zlen out ->
  if a + 64 * (n / 8) + 56 <=? zlen inp then
    bc1_bench_std_shift_unroll_8 c (Ptr BIn a) (Ptr BOut b) (8 * n) (Mem inp aux out) =
    Ok (Mem inp aux (splice out b (bc1_layout VNone false (slice inp a (8 * n)))))
  else exists why, bc1_bench_std_shift_unroll_8 c (Ptr BIn a) (Ptr BOut b) (8 * n) (Mem inp aux out) = Ub why.
Proof. exact shift_unroll_8_run. Qed.
Print Assumptions C72_shift_unroll_8_partial.
(** With a buffer of exactly the blocks, as the benchmarks pass it, that means: undefined
    for every number of blocks except those that leave 3 (of 4) or 7 (of 8) for the second loop. *)
Theorem C72_shift_unroll_refuted : forall (c : cfg) (inp aux out : list byte) (n : Z), cpu_ok c -> 0 <= n ->
  zlen inp = 8 * n -> zlen out = 8 * n ->
  (n mod 4 <> 3 -> exists why, bc1_bench_std_shift_unroll_4 c (Ptr BIn 0) (Ptr BOut 0) (8 * n) (Mem inp aux out) = Ub why) /\
  (n mod 8 <> 7 -> exists why, bc1_bench_std_shift_unroll_8 c (Ptr BIn 0) (Ptr BOut 0) (8 * n) (Mem inp aux out) = Ub why).
Proof.
  intros c inp aux out n K Hn Hi Ho. split; intros H.
  - pose proof (shift_unroll_4_run c inp aux out 0 0 n K ltac:(lia) ltac:(lia) Hn ltac:(lia) ltac:(lia)) as R.
    replace (0 + 32 * (n / 4) + 24 <=? zlen inp) with false in R by (symmetry; apply Z.leb_gt; lia). exact R.
  - pose proof (shift_unroll_8_run c inp aux out 0 0 n K ltac:(lia) ltac:(lia) Hn ltac:(lia) ltac:(lia)) as R.
    replace (0 + 64 * (n / 8) + 56 <=? zlen inp) with false in R by (symmetry; apply Z.leb_gt; lia). exact R.
Qed.
Print Assumptions C72_shift_unroll_refuted.

(** The model writes shift-and-pack (sse2_shift_impl) as byte picks; they are what the
    instructions compute. *)
Theorem C72_shift_pack : forall junk vt x y, List.length x = 16%nat -> List.length y = 16%nat ->
  apply_op (cdom junk vt) (OPshufb 1) [x; shl_ctrl] = Some (slli_epi32 16 x) /\
  exists lo hi, apply_op (cdom junk vt) (OPshufb 1) [x; pack_ctrl] = Some lo /\ apply_op (cdom junk vt) (OPshufb 1) [y; pack_ctrl] = Some hi /\
  exists lo' hi', apply_op (cdom junk vt) (OBytes 0 8) [lo] = Some lo' /\ apply_op (cdom junk vt) (OBytes 0 8) [hi] = Some hi' /\
  apply_op (cdom junk vt) OConcat [lo'; hi'] = Some (packs_epi32 (srai_epi32 16 x) (srai_epi32 16 y)).
Proof. exact (fun junk vt x y Hx Hy => conj (slli_picks junk vt x Hx) (srai_packs_picks junk vt x y Hx Hy)). Qed.
Print Assumptions C72_shift_pack.

(** All the tables' kernels on real data: 9 BC1 blocks, 9 BC2/BC3 blocks, 33 endpoint pairs. *)
Definition bytes_up (n : nat) : list byte := map z2b (zseq 0 n).
Definition runs (k : kernel) (len : Z) (want : list byte) : bool :=
  match k all_cpu (Ptr BIn 0) (Ptr BOut 0) len (Mem (bytes_up (Z.to_nat len)) [] (List.repeat xee (Z.to_nat len))) with
  | Ok m => if list_eq_dec Byte.byte_eq_dec (m_out m) want then true else false
  | _ => false end.
Example C72_case : cpu_ok all_cpu /\ 12 <= zlen bc1_bench_transforms /\
  runs bc1_bench_std_gather 72 (bc1_layout VNone false (bytes_up 72)) = true /\
  runs bc1_bench_std_shift_with_count_unroll_4 72 (bc1_layout VNone false (bytes_up 72)) = true /\
  runs bc1_bench_std_shift_unroll_4 56 (bc1_layout VNone false (bytes_up 56)) = true /\
  bc1_layout VNone false (bytes_up 16) = [x00; x01; x02; x03; x08; x09; x0a; x0b; x04; x05; x06; x07; x0c; x0d; x0e; x0f].
Proof.
  split; [constructor; intros; reflexivity || discriminate|]. split; [vm_compute; discriminate|].
  split; [vm_compute; reflexivity|]. split; [vm_compute; reflexivity|]. split; vm_compute; reflexivity.
Qed.

(** the second of them, nine blocks inside larger buffers *)
Example C72_bc1_transforms_met :
  let name := fst (fst (nth 1 bc1_bench_transforms (EmptyString, fun _ => false, fun _ _ _ _ _ => Panic EmptyString))) in let needs := snd (fst (nth 1
  bc1_bench_transforms (EmptyString, fun _ => false, fun _ _ _ _ _ => Panic EmptyString))) in let k := snd (nth 1 bc1_bench_transforms (EmptyString, fun _ => false, fun _
  _ _ _ _ => Panic EmptyString)) in let c := all_cpu in let inp := texture 77 in let aux := @nil byte in let out := repeat xee 78 in let a := 3 in let b := 6 in let n :=
  9 in
  In (name, needs, k) bc1_bench_transforms /\ cpu_ok c /\ needs c = true /\ 0 <= a /\ 0 <= b /\ 0 <= n /\ a + 8 * n <= zlen inp /\ b + 8 * n <= zlen out.
Proof. cbv zeta; repeat lazymatch goal with |- _ /\ _ => split end; first [right; left; reflexivity | met1]. Qed.

(** the second of them, nine blocks inside larger buffers *)
Example C72_bc1_untransforms_met :
  let name := fst (fst (nth 1 bc1_bench_untransforms (EmptyString, fun _ => false, fun _ _ _ _ _ => Panic EmptyString))) in let needs := snd (fst (nth 1
  bc1_bench_untransforms (EmptyString, fun _ => false, fun _ _ _ _ _ => Panic EmptyString))) in let k := snd (nth 1 bc1_bench_untransforms (EmptyString, fun _ => false,
  fun _ _ _ _ _ => Panic EmptyString)) in let c := all_cpu in let x := texture 72 in let inp := texture 3 ++ bc1_layout VNone false x ++ texture 2 in let aux := @nil byte
  in let out := repeat xee 78 in let a := 3 in let b := 6 in let n := 9 in
  In (name, needs, k) bc1_bench_untransforms /\ cpu_ok c /\ needs c = true /\ 0 <= a /\ 0 <= b /\ 0 <= n /\ a + 8 * n <= zlen inp /\ b + 8 * n <= zlen out /\ zlen x = 8 *
  n /\ slice inp a (8 * n) = bc1_layout VNone false x.
Proof. cbv zeta; repeat lazymatch goal with |- _ /\ _ => split end; first [right; left; reflexivity | met1]. Qed.

(** the second of them, nine blocks inside larger buffers *)
Example C72_bc2_transforms_met :
  let name := fst (fst (nth 1 bc2_bench_transforms (EmptyString, fun _ => false, fun _ _ _ _ _ => Panic EmptyString))) in let needs := snd (fst (nth 1
  bc2_bench_transforms (EmptyString, fun _ => false, fun _ _ _ _ _ => Panic EmptyString))) in let k := snd (nth 1 bc2_bench_transforms (EmptyString, fun _ => false, fun _
  _ _ _ _ => Panic EmptyString)) in let c := all_cpu in let inp := texture 149 in let aux := @nil byte in let out := repeat xee 150 in let a := 3 in let b := 6 in let n
  := 9 in
  In (name, needs, k) bc2_bench_transforms /\ cpu_ok c /\ needs c = true /\ 0 <= a /\ 0 <= b /\ 0 <= n /\ a + 16 * n <= zlen inp /\ b + 16 * n <= zlen out.
Proof. cbv zeta; repeat lazymatch goal with |- _ /\ _ => split end; first [right; left; reflexivity | met1]. Qed.

(** the second of them, nine blocks inside larger buffers *)
Example C72_bc2_untransforms_met :
  let name := fst (fst (nth 1 bc2_bench_untransforms (EmptyString, fun _ => false, fun _ _ _ _ _ => Panic EmptyString))) in let needs := snd (fst (nth 1
  bc2_bench_untransforms (EmptyString, fun _ => false, fun _ _ _ _ _ => Panic EmptyString))) in let k := snd (nth 1 bc2_bench_untransforms (EmptyString, fun _ => false,
  fun _ _ _ _ _ => Panic EmptyString)) in let c := all_cpu in let x := texture 144 in let inp := texture 3 ++ bc2_layout VNone false x ++ texture 2 in let aux := @nil
  byte in let out := repeat xee 150 in let a := 3 in let b := 6 in let n := 9 in
  In (name, needs, k) bc2_bench_untransforms /\ cpu_ok c /\ needs c = true /\ 0 <= a /\ 0 <= b /\ 0 <= n /\ a + 16 * n <= zlen inp /\ b + 16 * n <= zlen out /\ zlen x =
  16 * n /\ slice inp a (16 * n) = bc2_layout VNone false x.
Proof. cbv zeta; repeat lazymatch goal with |- _ /\ _ => split end; first [right; left; reflexivity | met1]. Qed.

(** the second of them, nine blocks inside larger buffers *)
Example C72_bc3_transforms_met :
  let name := fst (fst (nth 1 bc3_bench_transforms (EmptyString, fun _ => false, fun _ _ _ _ _ => Panic EmptyString))) in let needs := snd (fst (nth 1
  bc3_bench_transforms (EmptyString, fun _ => false, fun _ _ _ _ _ => Panic EmptyString))) in let k := snd (nth 1 bc3_bench_transforms (EmptyString, fun _ => false, fun _
  _ _ _ _ => Panic EmptyString)) in let c := all_cpu in let inp := texture 149 in let aux := @nil byte in let out := repeat xee 150 in let a := 3 in let b := 6 in let n
  := 9 in
  In (name, needs, k) bc3_bench_transforms /\ cpu_ok c /\ needs c = true /\ 0 <= a /\ 0 <= b /\ 0 <= n /\ a + 16 * n <= zlen inp /\ b + 16 * n <= zlen out.
Proof. cbv zeta; repeat lazymatch goal with |- _ /\ _ => split end; first [right; left; reflexivity | met1]. Qed.

(** the second of them, nine blocks inside larger buffers *)
Example C72_bc3_untransforms_met :
  let name := fst (fst (nth 1 bc3_bench_untransforms (EmptyString, fun _ => false, fun _ _ _ _ _ => Panic EmptyString))) in let needs := snd (fst (nth 1
  bc3_bench_untransforms (EmptyString, fun _ => false, fun _ _ _ _ _ => Panic EmptyString))) in let k := snd (nth 1 bc3_bench_untransforms (EmptyString, fun _ => false,
  fun _ _ _ _ _ => Panic EmptyString)) in let c := all_cpu in let x := texture 144 in let inp := texture 3 ++ bc3_layout VNone false false x ++ texture 2 in let aux :=
  @nil byte in let out := repeat xee 150 in let a := 3 in let b := 6 in let n := 9 in
  In (name, needs, k) bc3_bench_untransforms /\ cpu_ok c /\ needs c = true /\ 0 <= a /\ 0 <= b /\ 0 <= n /\ a + 16 * n <= zlen inp /\ b + 16 * n <= zlen out /\ zlen x =
  16 * n /\ slice inp a (16 * n) = bc3_layout VNone false false x.
Proof. cbv zeta; repeat lazymatch goal with |- _ /\ _ => split end; first [right; left; reflexivity | met1]. Qed.
