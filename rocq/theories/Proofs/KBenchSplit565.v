From Verif Require Import Base.Bytes Base.Res Model.Color565 Model.Ycc Model.Kernel Model.KernelBench Model.GenSplit565 Model.GenBenchSplit565
  Proofs.KernelCheck Proofs.KernelLoop Proofs.KernelFun Proofs.Shapes Proofs.KernelBenchFun Proofs.KSplit565.
From Coq Require Import ZifyBool ZifyNat.

(** at least [k] bytes of colours; in a debug build at least one pair *)
Definition from_bytes (c : cfg) (k : Z) : Z -> Prop := fun n => k <= 4 * n /\ (c_debug c = true -> 0 < n).
Ltac ktailb :=
  lazymatch goal with I : INV _ _ _ _ _ ?kk ?m |- exists m', _ /\ INV _ _ _ _ _ ?k' m' => ktail (k' - kk) end.
Ltac kpreb := unfold from_bytes, from64, nz_debug, any_n in *; repeat match goal with H : _ /\ _ |- _ => destruct H end;
  solve [exact Logic.I | assumption | lia | split; [lia | assumption]].
Ltac kcallb L :=
  lazymatch goal with
  | W : WF (Conf ?sh ?ins ?outs) ?m0 ?N, I : INV ?j ?v (Conf ?sh ?ins ?outs) ?m0 ?N 0 ?m, K : cpu_ok ?c,
    HC : CONTIG (Conf ?sh ?ins ?outs) ?N |- exists m', bind ?call _ = _ /\ _ =>
      let m1 := fresh "m" in let X := fresh "X" in let I' := fresh "I" in
      destruct (L c ins outs m0 N m K) as (m1 & X & I');
      [kfeat | kpreb | exact W | exact HC | klia | exact I | ]; cbv beta in X; rewrite X; clear X I; cbn [bind]
  end.

Lemma common_transforms_split_565_color_endpoints_bench_avx2_avx2_shuf_impl_ok : forall c, TSPEC c VNone sh_split (c_avx2 c) (from_bytes c 64)
  (fun P n m => common_transforms_split_565_color_endpoints_bench_avx2_avx2_shuf_impl c (P (PI 0)) (P (PO 0)) (n * 4) m).
Proof. intros c. kstart common_transforms_split_565_color_endpoints_bench_avx2_avx2_shuf_impl. pose proof Hp as Hq0; destruct Hp as [Hp Hdb]. kbench ltac:(first [ktailb]). Qed.

Lemma common_transforms_split_565_color_endpoints_bench_avx2_avx2_shuf_impl_unroll_2_ok : forall c, TSPEC c VNone sh_split (c_avx2 c) (from_bytes c 128)
  (fun P n m => common_transforms_split_565_color_endpoints_bench_avx2_avx2_shuf_impl_unroll_2 c (P (PI 0)) (P (PO 0)) (n * 4) m).
Proof. intros c. kstart common_transforms_split_565_color_endpoints_bench_avx2_avx2_shuf_impl_unroll_2. pose proof Hp as Hq0; destruct Hp as [Hp Hdb]. kbench ltac:(first [ktailb]). Qed.

Lemma common_transforms_split_565_color_endpoints_bench_avx512_avx512_impl_unroll2_ok : forall c, TSPEC c VNone sh_split (c_avx512f c && c_avx512vbmi c) (from_bytes c 0)
  (fun P n m => common_transforms_split_565_color_endpoints_bench_avx512_avx512_impl_unroll2 c (P (PI 0)) (P (PO 0)) (n * 4) m).
Proof. intros c. kstart common_transforms_split_565_color_endpoints_bench_avx512_avx512_impl_unroll2. pose proof Hp as Hq0; destruct Hp as [Hp Hdb]. kbench ltac:(first [ktailb]). Qed.

Lemma common_transforms_split_565_color_endpoints_bench_u32_ok : forall c, TSPEC c VNone sh_split (true) (from_bytes c 0)
  (fun P n m => common_transforms_split_565_color_endpoints_bench_u32 c (P (PI 0)) (P (PO 0)) (n * 4) m).
Proof. intros c. kstart common_transforms_split_565_color_endpoints_bench_u32. pose proof Hp as Hq0; destruct Hp as [Hp Hdb]. kbench ltac:(first [kcallb portable_ok]). Qed.

Lemma common_transforms_split_565_color_endpoints_bench_portable64_u64_ok : forall c, TSPEC c VNone sh_split (true) (from_bytes c 8)
  (fun P n m => common_transforms_split_565_color_endpoints_bench_portable64_u64 c (P (PI 0)) (P (PO 0)) (n * 4) m).
Proof. intros c. kstart common_transforms_split_565_color_endpoints_bench_portable64_u64. pose proof Hp as Hq0; destruct Hp as [Hp Hdb]. kbench ltac:(first [ktailb]). Qed.

Lemma common_transforms_split_565_color_endpoints_bench_u64_ok : forall c, TSPEC c VNone sh_split (true) (from_bytes c 8)
  (fun P n m => common_transforms_split_565_color_endpoints_bench_u64 c (P (PI 0)) (P (PO 0)) (n * 4) m).
Proof. intros c. kstart common_transforms_split_565_color_endpoints_bench_u64. pose proof Hp as Hq0; destruct Hp as [Hp Hdb]. kbench ltac:(first [kcallb common_transforms_split_565_color_endpoints_bench_portable64_u64_ok]). Qed.

Lemma common_transforms_split_565_color_endpoints_bench_portable64_u64_unroll_2_ok : forall c, TSPEC c VNone sh_split (true) (from_bytes c 16)
  (fun P n m => common_transforms_split_565_color_endpoints_bench_portable64_u64_unroll_2 c (P (PI 0)) (P (PO 0)) (n * 4) m).
Proof. intros c. kstart common_transforms_split_565_color_endpoints_bench_portable64_u64_unroll_2. pose proof Hp as Hq0; destruct Hp as [Hp Hdb]. kbench ltac:(first [ktailb]). Qed.

Lemma common_transforms_split_565_color_endpoints_bench_u64_unroll_2_ok : forall c, TSPEC c VNone sh_split (true) (from_bytes c 16)
  (fun P n m => common_transforms_split_565_color_endpoints_bench_u64_unroll_2 c (P (PI 0)) (P (PO 0)) (n * 4) m).
Proof. intros c. kstart common_transforms_split_565_color_endpoints_bench_u64_unroll_2. pose proof Hp as Hq0; destruct Hp as [Hp Hdb]. kbench ltac:(first [kcallb common_transforms_split_565_color_endpoints_bench_portable64_u64_unroll_2_ok]). Qed.

Lemma common_transforms_split_565_color_endpoints_bench_portable64_u64_unroll_4_ok : forall c, TSPEC c VNone sh_split (true) (from_bytes c 32)
  (fun P n m => common_transforms_split_565_color_endpoints_bench_portable64_u64_unroll_4 c (P (PI 0)) (P (PO 0)) (n * 4) m).
Proof. intros c. kstart common_transforms_split_565_color_endpoints_bench_portable64_u64_unroll_4. pose proof Hp as Hq0; destruct Hp as [Hp Hdb]. kbench ltac:(first [ktailb]). Qed.

Lemma common_transforms_split_565_color_endpoints_bench_u64_unroll_4_ok : forall c, TSPEC c VNone sh_split (true) (from_bytes c 32)
  (fun P n m => common_transforms_split_565_color_endpoints_bench_u64_unroll_4 c (P (PI 0)) (P (PO 0)) (n * 4) m).
Proof. intros c. kstart common_transforms_split_565_color_endpoints_bench_u64_unroll_4. pose proof Hp as Hq0; destruct Hp as [Hp Hdb]. kbench ltac:(first [kcallb common_transforms_split_565_color_endpoints_bench_portable64_u64_unroll_4_ok]). Qed.

Lemma common_transforms_split_565_color_endpoints_bench_portable64_u64_unroll_8_ok : forall c, TSPEC c VNone sh_split (true) (from_bytes c 64)
  (fun P n m => common_transforms_split_565_color_endpoints_bench_portable64_u64_unroll_8 c (P (PI 0)) (P (PO 0)) (n * 4) m).
Proof. intros c. kstart common_transforms_split_565_color_endpoints_bench_portable64_u64_unroll_8. pose proof Hp as Hq0; destruct Hp as [Hp Hdb]. kbench ltac:(first [ktailb]). Qed.

Lemma common_transforms_split_565_color_endpoints_bench_u64_unroll_8_ok : forall c, TSPEC c VNone sh_split (true) (from_bytes c 64)
  (fun P n m => common_transforms_split_565_color_endpoints_bench_u64_unroll_8 c (P (PI 0)) (P (PO 0)) (n * 4) m).
Proof. intros c. kstart common_transforms_split_565_color_endpoints_bench_u64_unroll_8. pose proof Hp as Hq0; destruct Hp as [Hp Hdb]. kbench ltac:(first [kcallb common_transforms_split_565_color_endpoints_bench_portable64_u64_unroll_8_ok]). Qed.

Lemma common_transforms_split_565_color_endpoints_bench_portable64_u64_mix_ok : forall c, TSPEC c VNone sh_split (true) (from_bytes c 8)
  (fun P n m => common_transforms_split_565_color_endpoints_bench_portable64_u64_mix c (P (PI 0)) (P (PO 0)) (n * 4) m).
Proof. intros c. kstart common_transforms_split_565_color_endpoints_bench_portable64_u64_mix. pose proof Hp as Hq0; destruct Hp as [Hp Hdb]. kbench ltac:(first [ktailb]). Qed.

Lemma common_transforms_split_565_color_endpoints_bench_u64_mix_ok : forall c, TSPEC c VNone sh_split (true) (from_bytes c 8)
  (fun P n m => common_transforms_split_565_color_endpoints_bench_u64_mix c (P (PI 0)) (P (PO 0)) (n * 4) m).
Proof. intros c. kstart common_transforms_split_565_color_endpoints_bench_u64_mix. pose proof Hp as Hq0; destruct Hp as [Hp Hdb]. kbench ltac:(first [kcallb common_transforms_split_565_color_endpoints_bench_portable64_u64_mix_ok]). Qed.

Lemma common_transforms_split_565_color_endpoints_bench_portable64_u64_mix_unroll_2_ok : forall c, TSPEC c VNone sh_split (true) (from_bytes c 16)
  (fun P n m => common_transforms_split_565_color_endpoints_bench_portable64_u64_mix_unroll_2 c (P (PI 0)) (P (PO 0)) (n * 4) m).
Proof. intros c. kstart common_transforms_split_565_color_endpoints_bench_portable64_u64_mix_unroll_2. pose proof Hp as Hq0; destruct Hp as [Hp Hdb]. kbench ltac:(first [ktailb]). Qed.

Lemma common_transforms_split_565_color_endpoints_bench_u64_mix_unroll_2_ok : forall c, TSPEC c VNone sh_split (true) (from_bytes c 16)
  (fun P n m => common_transforms_split_565_color_endpoints_bench_u64_mix_unroll_2 c (P (PI 0)) (P (PO 0)) (n * 4) m).
Proof. intros c. kstart common_transforms_split_565_color_endpoints_bench_u64_mix_unroll_2. pose proof Hp as Hq0; destruct Hp as [Hp Hdb]. kbench ltac:(first [kcallb common_transforms_split_565_color_endpoints_bench_portable64_u64_mix_unroll_2_ok]). Qed.

Lemma common_transforms_split_565_color_endpoints_bench_portable64_u64_mix_unroll_4_ok : forall c, TSPEC c VNone sh_split (true) (from_bytes c 32)
  (fun P n m => common_transforms_split_565_color_endpoints_bench_portable64_u64_mix_unroll_4 c (P (PI 0)) (P (PO 0)) (n * 4) m).
Proof. intros c. kstart common_transforms_split_565_color_endpoints_bench_portable64_u64_mix_unroll_4. pose proof Hp as Hq0; destruct Hp as [Hp Hdb]. kbench ltac:(first [ktailb]). Qed.

Lemma common_transforms_split_565_color_endpoints_bench_u64_mix_unroll_4_ok : forall c, TSPEC c VNone sh_split (true) (from_bytes c 32)
  (fun P n m => common_transforms_split_565_color_endpoints_bench_u64_mix_unroll_4 c (P (PI 0)) (P (PO 0)) (n * 4) m).
Proof. intros c. kstart common_transforms_split_565_color_endpoints_bench_u64_mix_unroll_4. pose proof Hp as Hq0; destruct Hp as [Hp Hdb]. kbench ltac:(first [kcallb common_transforms_split_565_color_endpoints_bench_portable64_u64_mix_unroll_4_ok]). Qed.

Lemma common_transforms_split_565_color_endpoints_bench_portable64_u64_mix_unroll_8_ok : forall c, TSPEC c VNone sh_split (true) (from_bytes c 64)
  (fun P n m => common_transforms_split_565_color_endpoints_bench_portable64_u64_mix_unroll_8 c (P (PI 0)) (P (PO 0)) (n * 4) m).
Proof. intros c. kstart common_transforms_split_565_color_endpoints_bench_portable64_u64_mix_unroll_8. pose proof Hp as Hq0; destruct Hp as [Hp Hdb]. kbench ltac:(first [ktailb]). Qed.

Lemma common_transforms_split_565_color_endpoints_bench_u64_mix_unroll_8_ok : forall c, TSPEC c VNone sh_split (true) (from_bytes c 64)
  (fun P n m => common_transforms_split_565_color_endpoints_bench_u64_mix_unroll_8 c (P (PI 0)) (P (PO 0)) (n * 4) m).
Proof. intros c. kstart common_transforms_split_565_color_endpoints_bench_u64_mix_unroll_8. pose proof Hp as Hq0; destruct Hp as [Hp Hdb]. kbench ltac:(first [kcallb common_transforms_split_565_color_endpoints_bench_portable64_u64_mix_unroll_8_ok]). Qed.

Lemma common_transforms_split_565_color_endpoints_bench_sse2_sse2_shift_impl_ok : forall c, TSPEC c VNone sh_split (c_sse2 c) (from_bytes c 16)
  (fun P n m => common_transforms_split_565_color_endpoints_bench_sse2_sse2_shift_impl c (P (PI 0)) (P (PO 0)) (n * 4) m).
Proof. intros c. kstart common_transforms_split_565_color_endpoints_bench_sse2_sse2_shift_impl. pose proof Hp as Hq0; destruct Hp as [Hp Hdb]. kbench ltac:(first [ktailb]). Qed.

Lemma common_transforms_split_565_color_endpoints_bench_sse2_shift_impl_ok : forall c, TSPEC c VNone sh_split (c_sse2 c) (from_bytes c 16)
  (fun P n m => common_transforms_split_565_color_endpoints_bench_sse2_shift_impl c (P (PI 0)) (P (PO 0)) (n * 4) m).
Proof. intros c. kstart common_transforms_split_565_color_endpoints_bench_sse2_shift_impl. pose proof Hp as Hq0; destruct Hp as [Hp Hdb]. kbench ltac:(first [kcallb common_transforms_split_565_color_endpoints_bench_sse2_sse2_shift_impl_ok]). Qed.

Lemma common_transforms_split_565_color_endpoints_bench_sse2_sse2_shuf_impl_ok : forall c, TSPEC c VNone sh_split (c_sse2 c) (from_bytes c 32)
  (fun P n m => common_transforms_split_565_color_endpoints_bench_sse2_sse2_shuf_impl c (P (PI 0)) (P (PO 0)) (n * 4) m).
Proof. intros c. kstart common_transforms_split_565_color_endpoints_bench_sse2_sse2_shuf_impl. pose proof Hp as Hq0; destruct Hp as [Hp Hdb]. kbench ltac:(first [ktailb]). Qed.

Lemma common_transforms_split_565_color_endpoints_bench_sse2_shuf_impl_ok : forall c, TSPEC c VNone sh_split (c_sse2 c) (from_bytes c 32)
  (fun P n m => common_transforms_split_565_color_endpoints_bench_sse2_shuf_impl c (P (PI 0)) (P (PO 0)) (n * 4) m).
Proof. intros c. kstart common_transforms_split_565_color_endpoints_bench_sse2_shuf_impl. pose proof Hp as Hq0; destruct Hp as [Hp Hdb]. kbench ltac:(first [kcallb common_transforms_split_565_color_endpoints_bench_sse2_sse2_shuf_impl_ok]). Qed.

Lemma common_transforms_split_565_color_endpoints_bench_sse2_shuf_unroll2_impl_asm_ok : forall c, TSPEC c VNone sh_split (c_sse2 c) (from_bytes c 64)
  (fun P n m => common_transforms_split_565_color_endpoints_bench_sse2_shuf_unroll2_impl_asm c (P (PI 0)) (P (PO 0)) (n * 4) m).
Proof. intros c. kstart common_transforms_split_565_color_endpoints_bench_sse2_shuf_unroll2_impl_asm. pose proof Hp as Hq0; destruct Hp as [Hp Hdb]. kbench ltac:(first [kcallb sse2_ok]). Qed.

Lemma common_transforms_split_565_color_endpoints_bench_sse2_sse2_shuf_unroll2_impl_ok : forall c, TSPEC c VNone sh_split (c_sse2 c) (from_bytes c 64)
  (fun P n m => common_transforms_split_565_color_endpoints_bench_sse2_sse2_shuf_unroll2_impl c (P (PI 0)) (P (PO 0)) (n * 4) m).
Proof. intros c. kstart common_transforms_split_565_color_endpoints_bench_sse2_sse2_shuf_unroll2_impl. pose proof Hp as Hq0; destruct Hp as [Hp Hdb]. kbench ltac:(first [ktailb]). Qed.

Lemma common_transforms_split_565_color_endpoints_bench_sse2_shuf_unroll2_impl_ok : forall c, TSPEC c VNone sh_split (c_sse2 c) (from_bytes c 64)
  (fun P n m => common_transforms_split_565_color_endpoints_bench_sse2_shuf_unroll2_impl c (P (PI 0)) (P (PO 0)) (n * 4) m).
Proof. intros c. kstart common_transforms_split_565_color_endpoints_bench_sse2_shuf_unroll2_impl. pose proof Hp as Hq0; destruct Hp as [Hp Hdb]. kbench ltac:(first [kcallb common_transforms_split_565_color_endpoints_bench_sse2_sse2_shuf_unroll2_impl_ok]). Qed.

Lemma common_transforms_split_565_color_endpoints_bench_ssse3_ssse3_pshufb_unroll2_impl_ok : forall c, TSPEC c VNone sh_split (c_sse2 c && c_ssse3 c) (from_bytes c 32)
  (fun P n m => common_transforms_split_565_color_endpoints_bench_ssse3_ssse3_pshufb_unroll2_impl c (P (PI 0)) (P (PO 0)) (n * 4) m).
Proof. intros c. kstart common_transforms_split_565_color_endpoints_bench_ssse3_ssse3_pshufb_unroll2_impl. pose proof Hp as Hq0; destruct Hp as [Hp Hdb]. kbench ltac:(first [ktailb]). Qed.

Lemma common_transforms_split_565_color_endpoints_bench_ssse3_pshufb_unroll2_impl_ok : forall c, TSPEC c VNone sh_split (c_sse2 c && c_ssse3 c) (from_bytes c 32)
  (fun P n m => common_transforms_split_565_color_endpoints_bench_ssse3_pshufb_unroll2_impl c (P (PI 0)) (P (PO 0)) (n * 4) m).
Proof. intros c. kstart common_transforms_split_565_color_endpoints_bench_ssse3_pshufb_unroll2_impl. pose proof Hp as Hq0; destruct Hp as [Hp Hdb]. kbench ltac:(first [kcallb common_transforms_split_565_color_endpoints_bench_ssse3_ssse3_pshufb_unroll2_impl_ok]). Qed.

Lemma common_transforms_split_565_color_endpoints_bench_ssse3_ssse3_pshufb_unroll4_impl_ok : forall c, TSPEC c VNone sh_split (c_sse2 c && c_ssse3 c) (from_bytes c 64)
  (fun P n m => common_transforms_split_565_color_endpoints_bench_ssse3_ssse3_pshufb_unroll4_impl c (P (PI 0)) (P (PO 0)) (n * 4) m).
Proof. intros c. kstart common_transforms_split_565_color_endpoints_bench_ssse3_ssse3_pshufb_unroll4_impl. pose proof Hp as Hq0; destruct Hp as [Hp Hdb]. kbench ltac:(first [ktailb]). Qed.

Lemma common_transforms_split_565_color_endpoints_bench_ssse3_pshufb_unroll4_impl_ok : forall c, TSPEC c VNone sh_split (c_sse2 c && c_ssse3 c) (from_bytes c 64)
  (fun P n m => common_transforms_split_565_color_endpoints_bench_ssse3_pshufb_unroll4_impl c (P (PI 0)) (P (PO 0)) (n * 4) m).
Proof. intros c. kstart common_transforms_split_565_color_endpoints_bench_ssse3_pshufb_unroll4_impl. pose proof Hp as Hq0; destruct Hp as [Hp Hdb]. kbench ltac:(first [kcallb common_transforms_split_565_color_endpoints_bench_ssse3_ssse3_pshufb_unroll4_impl_ok]). Qed.

Lemma common_transforms_split_565_color_endpoints_bench_avx2_shuf_impl_asm_ok : forall c, TSPEC c VNone sh_split (c_avx2 c) (from_bytes c 64)
  (fun P n m => common_transforms_split_565_color_endpoints_bench_avx2_shuf_impl_asm c (P (PI 0)) (P (PO 0)) (n * 4) m).
Proof. intros c. kstart common_transforms_split_565_color_endpoints_bench_avx2_shuf_impl_asm. pose proof Hp as Hq0; destruct Hp as [Hp Hdb]. kbench ltac:(first [kcallb avx2_ok]). Qed.

Lemma common_transforms_split_565_color_endpoints_bench_avx2_shuf_impl_ok : forall c, TSPEC c VNone sh_split (c_avx2 c) (from_bytes c 64)
  (fun P n m => common_transforms_split_565_color_endpoints_bench_avx2_shuf_impl c (P (PI 0)) (P (PO 0)) (n * 4) m).
Proof. intros c. kstart common_transforms_split_565_color_endpoints_bench_avx2_shuf_impl. pose proof Hp as Hq0; destruct Hp as [Hp Hdb]. kbench ltac:(first [kcallb common_transforms_split_565_color_endpoints_bench_avx2_avx2_shuf_impl_ok]). Qed.

Lemma common_transforms_split_565_color_endpoints_bench_avx2_shuf_impl_unroll_2_ok : forall c, TSPEC c VNone sh_split (c_avx2 c) (from_bytes c 128)
  (fun P n m => common_transforms_split_565_color_endpoints_bench_avx2_shuf_impl_unroll_2 c (P (PI 0)) (P (PO 0)) (n * 4) m).
Proof. intros c. kstart common_transforms_split_565_color_endpoints_bench_avx2_shuf_impl_unroll_2. pose proof Hp as Hq0; destruct Hp as [Hp Hdb]. kbench ltac:(first [kcallb common_transforms_split_565_color_endpoints_bench_avx2_avx2_shuf_impl_unroll_2_ok]). Qed.

Lemma common_transforms_split_565_color_endpoints_bench_avx512_impl_unroll2_ok : forall c, TSPEC c VNone sh_split (c_avx512f c && c_avx512vbmi c) (from_bytes c 0)
  (fun P n m => common_transforms_split_565_color_endpoints_bench_avx512_impl_unroll2 c (P (PI 0)) (P (PO 0)) (n * 4) m).
Proof. intros c. kstart common_transforms_split_565_color_endpoints_bench_avx512_impl_unroll2. pose proof Hp as Hq0; destruct Hp as [Hp Hdb]. kbench ltac:(first [kcallb common_transforms_split_565_color_endpoints_bench_avx512_avx512_impl_unroll2_ok]). Qed.

Lemma common_transforms_split_565_color_endpoints_bench_avx512_impl_ok : forall c, TSPEC c VNone sh_split (c_avx512f c && c_avx512vbmi c) (from_bytes c 0)
  (fun P n m => common_transforms_split_565_color_endpoints_bench_avx512_impl c (P (PI 0)) (P (PO 0)) (n * 4) m).
Proof. intros c. kstart common_transforms_split_565_color_endpoints_bench_avx512_impl. pose proof Hp as Hq0; destruct Hp as [Hp Hdb]. kbench ltac:(first [kcallb avx512_ok]). Qed.
