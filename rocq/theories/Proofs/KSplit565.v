(** The colour endpoint splitter. *)
From Verif Require Import Base.Bytes Base.Res Model.Color565 Model.Ycc Model.Kernel Model.GenSplit565
  Proofs.KernelCheck Proofs.KernelLoop Proofs.KernelFun Proofs.Shapes.
From Coq Require Import ZifyBool ZifyNat.

(** A loop whose end pointer lies inside its last turn. *)
Lemma asm_step_up : forall junk v C m0 N u cs names body re we x px kk n d pr m,
  WF C m0 N -> (existsb uses_ycc body = true -> v <> VNone) ->
  check (cf_sh C) u cs names body = Some (re, we) -> 0 < u ->
  look names x = Some px -> pid_ok (cf_sh C) px = true -> 0 < stride (cf_sh C) px ->
  0 <= kk -> 0 < n -> kk + u * n <= N ->
  room C m0 N (kk + u * (n - 1)) re we ->
  (kk + u * (n - 1)) * stride (cf_sh C) px < d <= (kk + u * n) * stride (cf_sh C) px -> pr = names_at C kk names ->
  INV junk v C m0 N kk m ->
  exists s', asm_jb junk (vnum v) body x (padd (base C px) d) (St cs pr m) = Ok s' /\
    READY C names cs (kk + u * n) s' /\ INV junk v C m0 N (kk + u * n) (mm s').
Proof.
  intros junk v C m0 N u cs names body re we x px kk n d pr m W HV HC Hu Hx Hpx Hst Hkk Hn HN HR Hd -> I.
  assert (RD : READY C names cs kk (St cs (names_at C kk names) m)) by (apply ready_intro; reflexivity).
  pose proof (enough_fuel junk v C m0 N u names body W HV Hu x px (padd (base C px) d) Hx eq_refl Hpx Hst kk n (St cs (names_at C kk names) m) Hkk ltac:(lia) HN I) as EF.
  destruct (asm_go_sound junk v C m0 N u cs names body re we W HV HC Hu x px (padd (base C px) d) Hx eq_refl
     (Z.to_nat n) (loop_fuel (St cs (names_at C kk names) m) (padd (base C px) d)) kk (St cs (names_at C kk names) m)) as (s' & X & Y & Z0); auto;
    rewrite ?Z2Nat.id in * by lia; try assumption; try lia; try (unfold at_blk; cbn [padd p_off]; lia).
  exists s'. unfold asm_jb. auto.
Qed.

Lemma u32_with_separate_endpoints_ok : forall c, SPEC c VNone sh_split true any_n
  (fun P n m => common_transforms_split_565_color_endpoints_portable32_u32_with_separate_endpoints c (padd (P (PI 0)) (n * 4)) (P (PI 0)) (P (PO 0)) (P (PO 1)) m).
Proof. intros c. kstart common_transforms_split_565_color_endpoints_portable32_u32_with_separate_endpoints. kauto ltac:(fail). Qed.

Ltac kloop_up u n :=
  lazymatch goal with
  | W : WF ?C ?m0 ?N, I : INV ?j ?v ?C ?m0 ?N ?kk ?m
    |- exists m', bind (asm_jb ?j ?vt ?body ?x (padd (base ?C ?px) ?d) (St ?cs ?prs ?m)) _ = _ /\ _ =>
      let names := names_of C prs in
      let r := eval vm_compute in (check (cf_sh C) u cs names body) in
      lazymatch r with
      | Some (?re, ?we) =>
          let s := fresh "s" in let X := fresh "X" in let R := fresh "R" in let I' := fresh "I" in
          let HC := fresh "HC" in
          assert (HC : check (cf_sh C) u cs names body = Some (re, we)) by (vm_compute; reflexivity);
          let t := eval vm_compute in (room_t (cf_sh C) re we) in
          destruct (asm_step_up j v C m0 N u cs names body re we x px kk n d prs m) as (s & X & R & I');
          [exact W | let H := fresh in intros H; vm_compute in H; discriminate H
          | exact HC | lia | reflexivity | reflexivity | reflexivity
          | klia | klia | klia
          | apply (room_ok C m0 N _ t _ _ W); [klia | klia | vm_compute; reflexivity]
          | klia | prs_eq | exact I | ];
          clear HC; cbn [vnum] in X; rewrite X; clear X I; cbn [bind]
      end
  end.

Ltac ktail n :=
  lazymatch goal with
  | W : WF (Conf ?sh ?ins ?outs) ?m0 ?N, I : INV ?j ?v (Conf ?sh ?ins ?outs) ?m0 ?N ?kk ?m, K : cpu_ok ?c
    |- exists m', bind ?call _ = _ /\ _ =>
      let m1 := fresh "m" in let X := fresh "X" in let I' := fresh "I" in let E := fresh "E" in
      destruct (u32_with_separate_endpoints_ok c ins outs m0 N kk n m K) as (m1 & X & I');
      [reflexivity | exact Logic.I | exact W | klia | klia | klia | exact I | ];
      cbv beta in X;
      lazymatch type of X with ?l = _ => assert (E : call = l); [kstride; f_equal; arg_eq | ] end;
      rewrite E, X; clear X E I; cbn [bind]
  end.
Lemma portable_ok : forall c, TSPEC c VNone sh_split true (nz_debug c)
  (fun P n m => common_transforms_split_565_color_endpoints_portable32_u32 c (P (PI 0)) (P (PO 0)) (n * 4) m).
Proof. intros c. kstart common_transforms_split_565_color_endpoints_portable32_u32. kgo. ktail N. kdone. Qed.
Lemma avx512_ok : forall c, TSPEC c VNone sh_split (c_avx512f c && c_avx512vbmi c) (nz_debug c)
  (fun P n m => common_transforms_split_565_color_endpoints_avx512_avx512_impl c (P (PI 0)) (P (PO 0)) (n * 4) m).
Proof. intros c. kstart common_transforms_split_565_color_endpoints_avx512_avx512_impl. kgo. kloop_auto while_step. kgo. ktail (N - 32 * q). kdone. Qed.
Definition from64 : Z -> Prop := fun n => 16 <= n.
Lemma avx2_ok : forall c, TSPEC c VNone sh_split (c_avx2 c) from64
  (fun P n m => common_transforms_split_565_color_endpoints_avx2_avx2_shuf_impl_asm c (P (PI 0)) (P (PO 0)) (n * 4) m).
Proof.
  intros c. kstart common_transforms_split_565_color_endpoints_avx2_avx2_shuf_impl_asm. unfold from64 in Hp. kgo.
  destruct (0 <? 0 + N * 4 + - (64)) eqn:B.
  - pose (q := (N * 4 - 64 + 63) / 64). assert (Hq : 64 * q - 64 < N * 4 - 64 <= 64 * q) by (subst q; lia). clearbody q.
    kgo. kloop_up 16 q. kgo. ktail (N - 16 * q). kdone.
  - kgo. ktail N. kdone.
Qed.
Lemma sse2_ok : forall c, TSPEC c VNone sh_split (c_sse2 c) from64
  (fun P n m => common_transforms_split_565_color_endpoints_sse2_sse2_shuf_unroll2_impl_asm c (P (PI 0)) (P (PO 0)) (n * 4) m).
Proof.
  intros c. kstart common_transforms_split_565_color_endpoints_sse2_sse2_shuf_unroll2_impl_asm. unfold from64 in Hp. kgo.
  destruct (0 <? 0 + N * 4 + - (64)) eqn:B.
  - pose (q := (N * 4 - 64 + 63) / 64). assert (Hq : 64 * q - 64 < N * 4 - 64 <= 64 * q) by (subst q; lia). clearbody q.
    kgo. kloop_up 16 q. kgo. ktail (N - 16 * q). kdone.
  - kgo. ktail N. kdone.
Qed.

(** The SSE2 and AVX2 routines subtract 64 from the end pointer first. *)
Definition split_len_ok (c : cfg) : Z -> Prop := fun n =>
  (c_debug c = true -> 0 < n) /\ (is_x86 c = true -> c_avx512vbmi c = false -> has_sse2 c = true \/ c_avx2 c = true -> 16 <= n).
Lemma split_ok : forall c, TSPEC c VNone sh_split true (split_len_ok c)
  (fun P n m => common_transforms_split_565_color_endpoints_split_color_endpoints c (P (PI 0)) (P (PO 0)) (n * 4) m).
Proof.
  intros c. kstart common_transforms_split_565_color_endpoints_split_color_endpoints. destruct Hp as [Hd H16].
  assert (ND : nz_debug c N) by exact Hd.
  assert (PO1 : forall f, (exists m', f (fun x => padd (base (Conf sh_split ins outs) x) 0) N m = Ok m' /\ INV (c_junk c) VNone (Conf sh_split ins outs) m0 N N m') ->
     exists m', (do m1 <- f (fun x => padd (base (Conf sh_split ins outs) x) 0) N m ;; Ok m1) = Ok m' /\ INV (c_junk c) VNone (Conf sh_split ins outs) m0 N N m').
  { intros f (m' & E & I'). exists m'. rewrite E. split; [reflexivity|exact I']. }
  rewrite debug_assert_ok by (intros D; specialize (Hd D); lia). cbn [bind].
  pose proof (portable_ok c ins outs m0 N m K eq_refl ND W HC HN I) as RP.
  destruct (is_x86 c) eqn:X86; [|exact (PO1 _ RP)].
  unfold common_transforms_split_565_color_endpoints_split_color_endpoints_x86.
  assert (R512 : c_avx512vbmi c = true -> c_avx512f c && c_avx512vbmi c = true).
  { intros V. rewrite V. rewrite (ok_512bw c K (ok_512vbmi c K V)). reflexivity. }
  pose proof (fun V => avx512_ok c ins outs m0 N m K (R512 V) ND W HC HN I) as RV.
  pose proof (fun A P16 => avx2_ok c ins outs m0 N m K A P16 W HC HN I) as RA.
  pose proof (fun A P16 => sse2_ok c ins outs m0 N m K A P16 W HC HN I) as RS.
  cbv beta in RV, RA, RS, RP. unfold from64 in RA, RS.
  assert (D2 : forall r, (exists m', r = Ok m' /\ INV (c_junk c) VNone (Conf sh_split ins outs) m0 N N m') ->
     exists m', (do m1 <- (do m2 <- r ;; Ok m2) ;; Ok m1) = Ok m' /\ INV (c_junk c) VNone (Conf sh_split ins outs) m0 N N m').
  { intros r (m' & E & I'). exists m'. rewrite E. split; [reflexivity|exact I']. }
  destruct (negb (c_static c)).
  - unfold has_avx512vbmi. destruct (c_avx512vbmi c) eqn:V; [apply D2; apply RV; reflexivity|].
    unfold has_avx2. destruct (c_avx2 c) eqn:A; [apply D2; apply RA; [reflexivity|apply H16; auto]|].
    destruct (has_sse2 c) eqn:S; [apply D2; apply RS; [apply has_sse2_ok; assumption|apply H16; auto]|].
    apply D2. exact RP.
  - destruct (c_avx512vbmi c) eqn:V; [apply D2; apply RV; reflexivity|].
    destruct (c_avx2 c) eqn:A; [apply D2; apply RA; [reflexivity|apply H16; auto]|].
    destruct (c_sse2 c) eqn:S; [apply D2; apply RS; [reflexivity|apply H16; auto]|].
    { left. unfold has_sse2. rewrite S. apply orb_true_r. }
    apply D2. exact RP.
Qed.
