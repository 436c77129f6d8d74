(** Exactly when the endpoint splitter is defined. *)
From Verif Require Import Base.Bytes Base.Res Model.Color565 Model.Ycc Model.Kernel Model.GenSplit565
  Proofs.KernelCheck Proofs.KernelLoop Proofs.KernelFun Proofs.Shapes Spec.YCoCg Spec.Layout
  Proofs.TransformFacts Proofs.KSplit565 Proofs.Split565Facts.
From Coq Require Import ZifyBool ZifyNat.
Open Scope string_scope.
Open Scope list_scope.
Open Scope Z_scope.

Definition plain_of (c : cfg) : cfg := Cfg (c_debug c) OtherArch false false false false false false false false (c_junk c).
Lemma plain_of_ok c : cpu_ok (plain_of c).
Proof. constructor; intros H; discriminate H. Qed.
Lemma len_ok c n : (c_debug c = true -> 0 < n) -> 0 <= n -> forall w,
  debug_assert (c_debug c) ((4 <=? 4 * n) && (4 * n mod 4 =? 0)) w = Ok tt.
Proof. intros D N w. apply debug_assert_ok. intros E. specialize (D E). lia. Qed.
Lemma bind_ret (r : res mem) : (do m <- r ;; Ok m) = r.
Proof. destruct r; reflexivity. Qed.
Lemma portable_run : forall c inp aux out a b n, (c_debug c = true -> 0 < n) -> 0 <= a -> 0 <= b -> 0 <= n ->
  a + 4 * n <= zlen inp -> b + 4 * n <= zlen out ->
  common_transforms_split_565_color_endpoints_portable32_u32 c (Ptr BIn a) (Ptr BOut b) (4 * n) (Mem inp aux out) =
  Ok (Mem inp aux (splice out b (lay [raw 0 2; raw 2 2] (blocks 4 (slice inp a (4 * n)))))).
Proof.
  intros c inp aux out a b n D A B N I O.
  rewrite <- (split_run (plain_of c) inp aux out a b n (plain_of_ok c)); [|split; [exact D|intros H; discriminate H]|assumption..].
  unfold common_transforms_split_565_color_endpoints_split_color_endpoints. cbn [plain_of c_debug]. rewrite len_ok by assumption. cbn [bind].
  change (is_x86 (plain_of c)) with false. cbv iota. rewrite bind_ret. reflexivity.
Qed.

Section Short.
Variables (c : cfg) (inp aux out : list byte) (a b n : Z).
Hypotheses (D : c_debug c = true -> 0 < n) (A : 0 <= a) (B : 0 <= b) (N : 0 <= n) (S : n < 16) (I : a + 4 * n <= zlen inp) (O : b + 4 * n <= zlen out).
Let short := if a + 4 * n <? 64 then Ub "pointer arithmetic out of bounds"
  else common_transforms_split_565_color_endpoints_portable32_u32 c (Ptr BIn a) (Ptr BOut b) (4 * n) (Mem inp aux out).
Lemma ends : ptr_add (Mem inp aux out) (Ptr BIn a) (4 * n) = Ok (Ptr BIn (a + 4 * n)) /\
  ptr_add (Mem inp aux out) (Ptr BOut b) (4 * n / 2) = Ok (Ptr BOut (b + 4 * n / 2)) /\
  ptr_add (Mem inp aux out) (Ptr BIn (a + 4 * n)) (- (64)) =
    if a + 4 * n <? 64 then Ub "pointer arithmetic out of bounds" else Ok (Ptr BIn (a + 4 * n + - (64))).
Proof.
  split; [rewrite ptr_add_in; [reflexivity|cbn [p_off p_buf buf_of m_in m_out]; lia]|]. split; [rewrite ptr_add_in; [reflexivity|cbn [p_off p_buf buf_of m_in m_out]; lia]|].
  destruct (Z.ltb_spec (a + 4 * n) 64) as [L|L].
  - unfold ptr_add. cbn [p_off p_buf buf_of m_in m_out]. replace (0 <=? a + 4 * n + - (64)) with false by lia. reflexivity.
  - rewrite ptr_add_in; [reflexivity|cbn [p_off p_buf buf_of m_in m_out]; lia].
Qed.
Lemma sse2_short : c_sse2 c = true -> common_transforms_split_565_color_endpoints_sse2_sse2_shuf_unroll2_impl_asm c (Ptr BIn a) (Ptr BOut b) (4 * n) (Mem inp aux out) = short.
Proof.
  intros E. unfold short, common_transforms_split_565_color_endpoints_sse2_sse2_shuf_unroll2_impl_asm, common_transforms_split_565_color_endpoints_portable32_u32, cpu_has.
  rewrite E, len_ok by assumption. cbn [bind]. cbv zeta. destruct ends as (E1 & E2 & E3). rewrite E1, E2. cbn [bind]. rewrite E3.
  destruct (Z.ltb_spec (a + 4 * n) 64) as [L|L]; [reflexivity|]. cbn [bind]. unfold ptr_ltb. cbn [p_buf p_off buf_eqb].
  replace (a <? a + 4 * n + - (64)) with false by lia. reflexivity.
Qed.
Lemma avx2_short : c_avx2 c = true -> common_transforms_split_565_color_endpoints_avx2_avx2_shuf_impl_asm c (Ptr BIn a) (Ptr BOut b) (4 * n) (Mem inp aux out) = short.
Proof.
  intros E. unfold short, common_transforms_split_565_color_endpoints_avx2_avx2_shuf_impl_asm, common_transforms_split_565_color_endpoints_portable32_u32, cpu_has.
  rewrite E, len_ok by assumption. cbn [bind]. cbv zeta. destruct ends as (E1 & E2 & E3). rewrite E1, E2. cbn [bind]. rewrite E3.
  destruct (Z.ltb_spec (a + 4 * n) 64) as [L|L]; [reflexivity|]. cbn [bind]. unfold ptr_ltb. cbn [p_buf p_off buf_eqb].
  replace (a <? a + 4 * n + - (64)) with false by lia. reflexivity.
Qed.
Lemma split_short : cpu_ok c -> is_x86 c = true -> c_avx512vbmi c = false -> has_sse2 c = true \/ c_avx2 c = true ->
  common_transforms_split_565_color_endpoints_split_color_endpoints c (Ptr BIn a) (Ptr BOut b) (4 * n) (Mem inp aux out) = short.
Proof.
  intros K X V H. unfold common_transforms_split_565_color_endpoints_split_color_endpoints, common_transforms_split_565_color_endpoints_split_color_endpoints_x86,
    has_avx512vbmi, has_avx2. rewrite len_ok by assumption. cbn [bind]. rewrite X, V.
  destruct (c_avx2 c) eqn:E2; [rewrite avx2_short by exact E2; destruct (negb (c_static c)); rewrite !bind_ret; reflexivity|].
  destruct H as [H|H]; [|discriminate H]. pose proof (has_sse2_ok c K H) as E. rewrite H, E.
  rewrite sse2_short by exact E. destruct (negb (c_static c)); rewrite !bind_ret; reflexivity.
Qed.
End Short.

Lemma split_exactly : forall c inp aux out a b n, cpu_ok c -> (c_debug c = true -> 0 < n) -> 0 <= a -> 0 <= b -> 0 <= n ->
  a + 4 * n <= zlen inp -> b + 4 * n <= zlen out ->
  common_transforms_split_565_color_endpoints_split_color_endpoints c (Ptr BIn a) (Ptr BOut b) (4 * n) (Mem inp aux out) =
  if is_x86 c && negb (c_avx512vbmi c) && (has_sse2 c || c_avx2 c) && (a + 4 * n <? 64) then Ub "pointer arithmetic out of bounds"
  else Ok (Mem inp aux (splice out b (lay [raw 0 2; raw 2 2] (blocks 4 (slice inp a (4 * n)))))).
Proof.
  intros c inp aux out a b n K D A B N I O.
  destruct (is_x86 c && negb (c_avx512vbmi c) && (has_sse2 c || c_avx2 c)) eqn:U; cbn [andb].
  - apply Bool.andb_true_iff in U. destruct U as [U H]. apply Bool.andb_true_iff in U. destruct U as [X V].
    apply Bool.orb_true_iff in H. destruct (c_avx512vbmi c) eqn:V'; [discriminate V|].
    destruct (Z_lt_ge_dec n 16) as [S|S].
    + rewrite split_short by assumption. destruct (a + 4 * n <? 64); [reflexivity|]. apply portable_run; assumption.
    + replace (a + 4 * n <? 64) with false by lia. apply split_run; try assumption. split; [exact D|intros; lia].
  - apply split_run; try assumption. split; [exact D|]. intros X V H. rewrite X, V in U. cbn [negb andb] in U.
    destruct H as [H|H]; rewrite H in U; [|rewrite Bool.orb_true_r in U]; discriminate U.
Qed.
