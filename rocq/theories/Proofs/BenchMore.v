(** The benchmark functions that Model/Bench.v leaves out of its tables. *)
From Verif Require Import Base.Bytes Base.Res Model.Color565 Model.Ycc Model.Kernel Model.KernelBench
  Model.GenBenchBc1 Model.GenBenchBc3 Model.Bench
  Proofs.KernelCheck Proofs.KernelLoop Proofs.KernelFun Proofs.Shapes Spec.YCoCg Spec.Layout
  Proofs.LayoutFacts Proofs.ShapeLayout Proofs.Families Proofs.TransformFacts
  Proofs.BenchRun Proofs.KBenchBc1 Proofs.KBenchBc3 Proofs.KBenchShift.
From Coq Require Import ZifyBool ZifyNat.

Lemma shift_unroll_4_run : forall c inp aux out a b n, cpu_ok c -> 0 <= a -> 0 <= b -> 0 <= n -> a + 8 * n <= zlen inp -> b + 8 * n <= zlen out ->
  if a + 32 * (n / 4) + 24 <=? zlen inp then
    bc1_bench_std_shift_unroll_4 c (Ptr BIn a) (Ptr BOut b) (8 * n) (Mem inp aux out) =
    Ok (Mem inp aux (splice out b (bc1_layout VNone false (slice inp a (8 * n)))))
  else exists why, bc1_bench_std_shift_unroll_4 c (Ptr BIn a) (Ptr BOut b) (8 * n) (Mem inp aux out) = Ub why.
Proof.
  intros c inp aux out a b n K Ha Hb Hn Hi Ho.
  pose proof (bc1_t_run0 c true (fun p q l m => if shift_room 4 p (l / 8) m then bc1_std_t_bench_portable64_shift_unroll_4 c p q l m
                else bc1_std_t_bench_portable64_shift c p q l m)) as R.
  pose proof (bc1_t_run0 c true (fun p q l m => if shift_room 4 p (l / 8) m then bc1_std_t_bench_portable64_shift c p q l m
                else match bc1_std_t_bench_portable64_shift_unroll_4 c p q l m with
                     | Ub _ => bc1_std_t_bench_portable64_shift c p q l m | _ => Panic "" end)) as R'.
  lapply R; [clear R; intros R|].
  2: { intros ins outs m0 N m K' Hf Hp W HC HN I. replace (8 * N / 8) with N by lia. exact (shift_unroll_4_room c ins outs m0 N m K' Hf Hp W HC HN I). }
  lapply R'; [clear R'; intros R'|].
  2: { intros ins outs m0 N m K' Hf Hp W HC HN I. replace (8 * N / 8) with N by lia. exact (shift_unroll_4_no_room c ins outs m0 N m K' Hf Hp W HC HN I). }
  specialize (R K eq_refl inp aux out a b n Ha Hb Hn Hi Ho). specialize (R' K eq_refl inp aux out a b n Ha Hb Hn Hi Ho). cbv beta in R, R'.
  replace (8 * n / 8) with n in R, R' by lia. unfold shift_room in R, R'. cbn [p_off p_buf buf_of m_in] in R, R'.
  replace (8 * 4 * (n / 4)) with (32 * (n / 4)) in R, R' by lia. replace (8 * (4 - 1)) with 24 in R, R' by lia.
  unfold bc1_bench_std_shift_unroll_4.
  destruct (a + 32 * (n / 4) + 24 <=? zlen inp); [rewrite R; reflexivity|].
  destruct (bc1_std_t_bench_portable64_shift_unroll_4 c _ _ _ _) as [m|w|w]; [discriminate R'|discriminate R'|exists w; reflexivity].
Qed.
Lemma shift_unroll_8_run : forall c inp aux out a b n, cpu_ok c -> 0 <= a -> 0 <= b -> 0 <= n -> a + 8 * n <= zlen inp -> b + 8 * n <= zlen out ->
  if a + 64 * (n / 8) + 56 <=? zlen inp then
    bc1_bench_std_shift_unroll_8 c (Ptr BIn a) (Ptr BOut b) (8 * n) (Mem inp aux out) =
    Ok (Mem inp aux (splice out b (bc1_layout VNone false (slice inp a (8 * n)))))
  else exists why, bc1_bench_std_shift_unroll_8 c (Ptr BIn a) (Ptr BOut b) (8 * n) (Mem inp aux out) = Ub why.
Proof.
  intros c inp aux out a b n K Ha Hb Hn Hi Ho.
  pose proof (bc1_t_run0 c true (fun p q l m => if shift_room 8 p (l / 8) m then bc1_std_t_bench_portable64_shift_unroll_8 c p q l m
                else bc1_std_t_bench_portable64_shift c p q l m)) as R.
  pose proof (bc1_t_run0 c true (fun p q l m => if shift_room 8 p (l / 8) m then bc1_std_t_bench_portable64_shift c p q l m
                else match bc1_std_t_bench_portable64_shift_unroll_8 c p q l m with
                     | Ub _ => bc1_std_t_bench_portable64_shift c p q l m | _ => Panic "" end)) as R'.
  lapply R; [clear R; intros R|].
  2: { intros ins outs m0 N m K' Hf Hp W HC HN I. replace (8 * N / 8) with N by lia. exact (shift_unroll_8_room c ins outs m0 N m K' Hf Hp W HC HN I). }
  lapply R'; [clear R'; intros R'|].
  2: { intros ins outs m0 N m K' Hf Hp W HC HN I. replace (8 * N / 8) with N by lia. exact (shift_unroll_8_no_room c ins outs m0 N m K' Hf Hp W HC HN I). }
  specialize (R K eq_refl inp aux out a b n Ha Hb Hn Hi Ho). specialize (R' K eq_refl inp aux out a b n Ha Hb Hn Hi Ho). cbv beta in R, R'.
  replace (8 * n / 8) with n in R, R' by lia. unfold shift_room in R, R'. cbn [p_off p_buf buf_of m_in] in R, R'.
  replace (8 * 8 * (n / 8)) with (64 * (n / 8)) in R, R' by lia. replace (8 * (8 - 1)) with 56 in R, R' by lia.
  unfold bc1_bench_std_shift_unroll_8.
  destruct (a + 64 * (n / 8) + 56 <=? zlen inp); [rewrite R; reflexivity|].
  destruct (bc1_std_t_bench_portable64_shift_unroll_8 c _ _ _ _) as [m|w|w]; [discriminate R'|discriminate R'|exists w; reflexivity].
Qed.
Ltac unlay_x c FM x inp a n :=
  lazymatch type of FM with FAM ?v ?st ?su ?k ?fs ?ws =>
    let H := fresh in let L := fresh in
    pose proof (FAM_untransform v st su k fs ws (c_junk c) a n inp FM ltac:(lia) ltac:(lia) ltac:(lia)
      ltac:(cbn [Z.of_nat Pos.of_succ_nat Pos.succ]; lia)) as H;
    cbn [Z.of_nat Pos.of_succ_nat Pos.succ] in H;
    match goal with E : slice inp a ?l = _ |- _ => replace (n * _) with l in H by lia; rewrite E in H end;
    assert (L : (List.length (lay fs (blocks k x)) = List.length x)%nat)
      by (apply Nat2Z.inj; apply (lay_zlen _ _ _ _ _ _ _ FM); [lia|]; cbn [Z.of_nat Pos.of_succ_nat Pos.succ]; lia);
    apply (FAM_injective v st su k fs ws (lay fs (blocks k x)) _ _ FM ltac:(lia));
    [rewrite L; unfold zlen in *; lia | exact H | split; [symmetry; exact L | reflexivity]]
  end.
Lemma bc1_bench_std_permute_512_unroll_2_with_separate_pointers_run : forall c inp aux out a b n, cpu_ok c -> c_avx512f c && c_sse2 c = true -> 0 <= a -> 0 <= b -> 0 <= n ->
  a + 8 * n <= zlen inp -> b + 8 * n <= zlen out -> 
  bc1_bench_std_permute_512_unroll_2_with_separate_pointers c (Ptr BIn a) (Ptr BOut b) (Ptr BOut (b + 4 * n)) (8 * n) (Mem inp aux out) = Ok (Mem inp aux (splice out b (bc1_layout VNone false (slice inp a (8 * n))))).
Proof.
  intros c inp aux out a b n K Hf Ha Hb Hn Hi Ho.
  pose proof (bc1_bench_std_permute_512_unroll_2_with_separate_pointers_ok c) as Q. pose proof fam_bc1_std as FM.
  apply SPEC_RUN in Q; [|solve [apply FM]|intros ? ? ? ? E'; cbv beta; rewrite !E'; reflexivity].
  destruct (total_t _ _ _ _ _ _ FM) as (T1 & T2 & T3 & T4).
  specialize (Q a b n (Mem inp aux out)). rewrite ?T1, ?T2, ?T3, ?T4 in Q. cbv beta in Q. cbn [m_in m_out m_aux] in Q.
  cbn [Z.of_nat Pos.of_succ_nat Pos.succ] in Q.
  specialize (Q K Hf I Ha Hb Hn ltac:(lia) ltac:(lia)). bases Q.
  lazymatch type of Q with ?l = _ => lazymatch goal with |- ?g = _ => replace g with l by (f_equal; try (f_equal; lia); lia) end end. rewrite Q. clear Q. f_equal. f_equal. f_equal.
  rewrite (FAM_transform _ _ _ _ _ _ _ _ _ _ FM) by (cbn [Z.of_nat Pos.of_succ_nat Pos.succ]; lia).
  cbn [Z.of_nat Pos.of_succ_nat Pos.succ]. replace (n * 8) with (8 * n) by lia. reflexivity.
Qed.
Lemma bc1_bench_u_std_permute_512_untransform_unroll_2_with_components_intrinsics_run : forall c x inp aux out a b n, cpu_ok c -> c_avx512f c && c_sse2 c = true -> 0 <= a -> 0 <= b -> 0 <= n ->
  a + 8 * n <= zlen inp -> b + 8 * n <= zlen out -> zlen x = 8 * n -> slice inp a (8 * n) = bc1_layout VNone false x -> 
  bc1_bench_u_std_permute_512_untransform_unroll_2_with_components_intrinsics c (Ptr BOut b) (8 * n) (Ptr BIn (a + 4 * n)) (Ptr BIn a) (Mem inp aux out) = Ok (Mem inp aux (splice out b x)).
Proof.
  intros c x inp aux out a b n K Hf Ha Hb Hn Hi Ho Hx Hs.
  pose proof (bc1_bench_u_std_permute_512_untransform_unroll_2_with_components_intrinsics_ok c) as Q. pose proof fam_bc1_std as FM.
  apply SPEC_RUN in Q; [|solve [apply FM]|intros ? ? ? ? E'; cbv beta; rewrite !E'; reflexivity].
  destruct (total_t _ _ _ _ _ _ FM) as (T1 & T2 & T3 & T4).
  specialize (Q a b n (Mem inp aux out)). rewrite ?T1, ?T2, ?T3, ?T4 in Q. cbv beta in Q. cbn [m_in m_out m_aux] in Q.
  cbn [Z.of_nat Pos.of_succ_nat Pos.succ] in Q.
  specialize (Q K Hf I Ha Hb Hn ltac:(lia) ltac:(lia)). bases Q.
  lazymatch type of Q with ?l = _ => lazymatch goal with |- ?g = _ => replace g with l by (f_equal; try (f_equal; lia); lia) end end. rewrite Q. clear Q. f_equal. f_equal. f_equal.
  unlay_x c FM x inp a n.
Qed.
Lemma bc3_bench_sa_generic_transform_with_split_alphas_run : forall c inp aux out a b n, cpu_ok c -> true = true -> 0 <= a -> 0 <= b -> 0 <= n ->
  a + 16 * n <= zlen inp -> b + 16 * n <= zlen out -> 
  bc3_bench_sa_generic_transform_with_split_alphas c (Ptr BIn a) (Ptr BOut b) (Ptr BOut (b + n)) (Ptr BOut (b + 2 * n)) (Ptr BOut (b + 8 * n)) (Ptr BOut (b + 12 * n)) n (Mem inp aux out) = Ok (Mem inp aux (splice out b (bc3_layout VNone true false (slice inp a (16 * n))))).
Proof.
  intros c inp aux out a b n K Hf Ha Hb Hn Hi Ho.
  pose proof (bc3_bench_sa_generic_transform_with_split_alphas_ok c) as Q. pose proof fam_bc3_sa as FM.
  apply SPEC_RUN in Q; [|solve [apply FM]|intros ? ? ? ? E'; cbv beta; rewrite !E'; reflexivity].
  destruct (total_t _ _ _ _ _ _ FM) as (T1 & T2 & T3 & T4).
  specialize (Q a b n (Mem inp aux out)). rewrite ?T1, ?T2, ?T3, ?T4 in Q. cbv beta in Q. cbn [m_in m_out m_aux] in Q.
  cbn [Z.of_nat Pos.of_succ_nat Pos.succ] in Q.
  specialize (Q K Hf I Ha Hb Hn ltac:(lia) ltac:(lia)). bases Q.
  lazymatch type of Q with ?l = _ => lazymatch goal with |- ?g = _ => replace g with l by (f_equal; try (f_equal; lia); lia) end end. rewrite Q. clear Q. f_equal. f_equal. f_equal.
  rewrite (FAM_transform _ _ _ _ _ _ _ _ _ _ FM) by (cbn [Z.of_nat Pos.of_succ_nat Pos.succ]; lia).
  cbn [Z.of_nat Pos.of_succ_nat Pos.succ]. replace (n * 16) with (16 * n) by lia. reflexivity.
Qed.
Lemma bc3_bench_sa_avx2_transform_with_split_alphas_run : forall c inp aux out a b n, cpu_ok c -> c_avx2 c && is_x86 c = true -> 0 <= a -> 0 <= b -> 0 <= n ->
  a + 16 * n <= zlen inp -> b + 16 * n <= zlen out -> 
  bc3_bench_sa_avx2_transform_with_split_alphas c (Ptr BIn a) (Ptr BOut b) (Ptr BOut (b + n)) (Ptr BOut (b + 2 * n)) (Ptr BOut (b + 8 * n)) (Ptr BOut (b + 12 * n)) n (Mem inp aux out) = Ok (Mem inp aux (splice out b (bc3_layout VNone true false (slice inp a (16 * n))))).
Proof.
  intros c inp aux out a b n K Hf Ha Hb Hn Hi Ho.
  pose proof (bc3_bench_sa_avx2_transform_with_split_alphas_ok c) as Q. pose proof fam_bc3_sa as FM.
  apply SPEC_RUN in Q; [|solve [apply FM]|intros ? ? ? ? E'; cbv beta; rewrite !E'; reflexivity].
  destruct (total_t _ _ _ _ _ _ FM) as (T1 & T2 & T3 & T4).
  specialize (Q a b n (Mem inp aux out)). rewrite ?T1, ?T2, ?T3, ?T4 in Q. cbv beta in Q. cbn [m_in m_out m_aux] in Q.
  cbn [Z.of_nat Pos.of_succ_nat Pos.succ] in Q.
  specialize (Q K Hf I Ha Hb Hn ltac:(lia) ltac:(lia)). bases Q.
  lazymatch type of Q with ?l = _ => lazymatch goal with |- ?g = _ => replace g with l by (f_equal; try (f_equal; lia); lia) end end. rewrite Q. clear Q. f_equal. f_equal. f_equal.
  rewrite (FAM_transform _ _ _ _ _ _ _ _ _ _ FM) by (cbn [Z.of_nat Pos.of_succ_nat Pos.succ]; lia).
  cbn [Z.of_nat Pos.of_succ_nat Pos.succ]. replace (n * 16) with (16 * n) by lia. reflexivity.
Qed.
Lemma bc3_bench_sa_avx512_transform_with_split_alphas_run : forall c inp aux out a b n, cpu_ok c -> c_avx2 c && c_avx512f c && c_avx512vbmi c && c_sse2 c = true -> nonempty c n -> 0 <= a -> 0 <= b -> 0 <= n ->
  a + 16 * n <= zlen inp -> b + 16 * n <= zlen out -> 
  bc3_bench_sa_avx512_transform_with_split_alphas c (Ptr BIn a) (Ptr BOut b) (Ptr BOut (b + n)) (Ptr BOut (b + 2 * n)) (Ptr BOut (b + 8 * n)) (Ptr BOut (b + 12 * n)) n (Mem inp aux out) = Ok (Mem inp aux (splice out b (bc3_layout VNone true false (slice inp a (16 * n))))).
Proof.
  intros c inp aux out a b n K Hf HP Ha Hb Hn Hi Ho.
  pose proof (bc3_bench_sa_avx512_transform_with_split_alphas_ok c) as Q. pose proof fam_bc3_sa as FM.
  apply SPEC_RUN in Q; [|solve [apply FM]|intros ? ? ? ? E'; cbv beta; rewrite !E'; reflexivity].
  destruct (total_t _ _ _ _ _ _ FM) as (T1 & T2 & T3 & T4).
  specialize (Q a b n (Mem inp aux out)). rewrite ?T1, ?T2, ?T3, ?T4 in Q. cbv beta in Q. cbn [m_in m_out m_aux] in Q.
  cbn [Z.of_nat Pos.of_succ_nat Pos.succ] in Q.
  specialize (Q K Hf HP Ha Hb Hn ltac:(lia) ltac:(lia)). bases Q.
  lazymatch type of Q with ?l = _ => lazymatch goal with |- ?g = _ => replace g with l by (f_equal; try (f_equal; lia); lia) end end. rewrite Q. clear Q. f_equal. f_equal. f_equal.
  rewrite (FAM_transform _ _ _ _ _ _ _ _ _ _ FM) by (cbn [Z.of_nat Pos.of_succ_nat Pos.succ]; lia).
  cbn [Z.of_nat Pos.of_succ_nat Pos.succ]. replace (n * 16) with (16 * n) by lia. reflexivity.
Qed.
Lemma bc3_bench_u_sa_generic_untransform_with_split_alphas_run : forall c x inp aux out a b n, cpu_ok c -> true = true -> 0 <= a -> 0 <= b -> 0 <= n ->
  a + 16 * n <= zlen inp -> b + 16 * n <= zlen out -> zlen x = 16 * n -> slice inp a (16 * n) = bc3_layout VNone true false x -> 
  bc3_bench_u_sa_generic_untransform_with_split_alphas c (Ptr BIn a) (Ptr BIn (a + n)) (Ptr BIn (a + 2 * n)) (Ptr BIn (a + 8 * n)) (Ptr BIn (a + 12 * n)) (Ptr BOut b) n (Mem inp aux out) = Ok (Mem inp aux (splice out b x)).
Proof.
  intros c x inp aux out a b n K Hf Ha Hb Hn Hi Ho Hx Hs.
  pose proof (bc3_bench_u_sa_generic_untransform_with_split_alphas_ok c) as Q. pose proof fam_bc3_sa as FM.
  apply SPEC_RUN in Q; [|solve [apply FM]|intros ? ? ? ? E'; cbv beta; rewrite !E'; reflexivity].
  destruct (total_t _ _ _ _ _ _ FM) as (T1 & T2 & T3 & T4).
  specialize (Q a b n (Mem inp aux out)). rewrite ?T1, ?T2, ?T3, ?T4 in Q. cbv beta in Q. cbn [m_in m_out m_aux] in Q.
  cbn [Z.of_nat Pos.of_succ_nat Pos.succ] in Q.
  specialize (Q K Hf I Ha Hb Hn ltac:(lia) ltac:(lia)). bases Q.
  lazymatch type of Q with ?l = _ => lazymatch goal with |- ?g = _ => replace g with l by (f_equal; try (f_equal; lia); lia) end end. rewrite Q. clear Q. f_equal. f_equal. f_equal.
  unlay_x c FM x inp a n.
Qed.
Lemma bc3_bench_u_sa_sse2_untransform_with_split_alphas_run : forall c x inp aux out a b n, cpu_ok c -> c_sse2 c = true -> 0 <= a -> 0 <= b -> 0 <= n ->
  a + 16 * n <= zlen inp -> b + 16 * n <= zlen out -> zlen x = 16 * n -> slice inp a (16 * n) = bc3_layout VNone true false x -> 
  bc3_bench_u_sa_sse2_untransform_with_split_alphas c (Ptr BIn a) (Ptr BIn (a + n)) (Ptr BIn (a + 2 * n)) (Ptr BIn (a + 8 * n)) (Ptr BIn (a + 12 * n)) (Ptr BOut b) n (Mem inp aux out) = Ok (Mem inp aux (splice out b x)).
Proof.
  intros c x inp aux out a b n K Hf Ha Hb Hn Hi Ho Hx Hs.
  pose proof (bc3_bench_u_sa_sse2_untransform_with_split_alphas_ok c) as Q. pose proof fam_bc3_sa as FM.
  apply SPEC_RUN in Q; [|solve [apply FM]|intros ? ? ? ? E'; cbv beta; rewrite !E'; reflexivity].
  destruct (total_t _ _ _ _ _ _ FM) as (T1 & T2 & T3 & T4).
  specialize (Q a b n (Mem inp aux out)). rewrite ?T1, ?T2, ?T3, ?T4 in Q. cbv beta in Q. cbn [m_in m_out m_aux] in Q.
  cbn [Z.of_nat Pos.of_succ_nat Pos.succ] in Q.
  specialize (Q K Hf I Ha Hb Hn ltac:(lia) ltac:(lia)). bases Q.
  lazymatch type of Q with ?l = _ => lazymatch goal with |- ?g = _ => replace g with l by (f_equal; try (f_equal; lia); lia) end end. rewrite Q. clear Q. f_equal. f_equal. f_equal.
  unlay_x c FM x inp a n.
Qed.
