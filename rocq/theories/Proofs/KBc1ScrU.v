(** The BC1 split-colour + recorrelate untransform, whose generic fallback goes
    through a temporary buffer. *)
From Verif Require Import Base.Bytes Base.Res Model.Color565 Model.Ycc Model.Kernel Model.ColorBatch
  Model.GenBc1Std Model.GenBc1Scr
  Proofs.LanesFacts Proofs.KernelCheck Proofs.KernelLoop Proofs.KernelFun Proofs.Shapes
  Proofs.KBc1Std Proofs.KBc1Scr.
From Coq Require Import ZifyBool ZifyNat.

Lemma INV_0 : forall junk v C m N, INV junk v C m N 0 m.
Proof. intros. constructor; try reflexivity. intros. lia. Qed.

(** Two colour sections, recorrelated and put together. *)
Definition sh_recorr_split := Shape [2; 2] [col Rec 0 0 ++ col Rec 1 0].

Lemma color_batch_recorrelate_ptr_split_ok : forall c v, SPEC c v sh_recorr_split (vok v) any_n
  (fun P n m => color_batch_recorrelate_ptr_split c (P (PI 0)) (P (PI 1)) (P (PO 0)) (2 * n) v m).
Proof.
  intros c v. kstart color_batch_recorrelate_ptr_split.
  replace (match v with VNone => color_batch_copy_split_body | _ => color_batch_recorr_split_body end)
    with color_batch_recorr_split_body by (destruct v; first [reflexivity | discriminate Hf]).
  replace (2 * n / 2 * 2) with (2 * n) by lia.
  kauto ltac:(fail).
Qed.


(** [SPEC] for all the blocks at once, for sections in the input buffer. *)
Definition ISPEC (c : cfg) (v : variant) (sh : shape) (feats : bool) (pre : Z -> Prop)
  (call : (pid -> ptr) -> Z -> mem -> res mem) : Prop :=
  forall ins outs m0 n, cpu_ok c -> feats = true -> pre n ->
  WF (Conf sh ins outs) m0 n ->
  (forall k, (k < List.length (sh_ins sh))%nat -> p_buf (base (Conf sh ins outs) (PI k)) = BIn) ->
  exists m', call (base (Conf sh ins outs)) n m0 = Ok m' /\
             INV (c_junk c) v (Conf sh ins outs) m0 n n m'.

Lemma SPEC_ISPEC : forall c v sh feats pre call,
  (forall P P' n m, (forall x, P x = P' x) -> call P n m = call P' n m) ->
  SPEC c v sh feats pre call -> ISPEC c v sh feats pre call.
Proof.
  intros c v sh feats pre call He S ins outs m0 n K Hf Hp W Hin.
  pose proof (wf_N _ _ _ W) as HN.
  destruct (S ins outs m0 n 0 n m0 K Hf Hp W ltac:(lia) HN ltac:(lia) (INV_0 _ _ _ _ _)) as (m' & X & I).
  exists m'. split; [|exact I]. rewrite <- X. apply He. intros x.
  change (0 * stride sh x) with 0. rewrite padd_0. reflexivity.
Qed.

Ltac nth_now := repeat match goal with |- context [nth ?n ?l SJunk] =>
  let r := eval vm_compute in (nth n l SJunk) in change (nth n l SJunk) with r end.
Ltac ispec_of H :=
  let Q := fresh in
  pose proof H as Q; apply SPEC_ISPEC in Q; [apply Q; auto | intros ? ? ? ? E'; cbv beta; rewrite !E'; reflexivity].

Lemma bc1_scr_u_generic_ok : forall c v, ISPEC c v sh_bc1_scr_u (vok v) any_n
  (fun P n m => bc1_scr_u_generic_untransform_with_split_colour_and_recorr_generic c
                  (P (PI 0)) (P (PI 1)) (P (PI 2)) (P (PO 0)) n v m).
Proof.
  intros c v ins outs m0 n K Hf Hp W Hin.
  unfold bc1_scr_u_generic_untransform_with_split_colour_and_recorr_generic.
  destruct (negb (is_x86 c) && (128 <=? n)) eqn:E.
  2:{ destruct v; try discriminate Hf.
      - ispec_of (bc1_scr_u_generic_untransform_recorr_var1_ok c).
      - ispec_of (bc1_scr_u_generic_untransform_recorr_var2_ok c).
      - ispec_of (bc1_scr_u_generic_untransform_recorr_var3_ok c). }
  pose proof (wf_N _ _ _ W) as HN.
  pose proof (wf_in _ _ _ W 0%nat ltac:(cbn; lia)) as W0.
  pose proof (wf_in _ _ _ W 1%nat ltac:(cbn; lia)) as W1.
  pose proof (wf_in _ _ _ W 2%nat ltac:(cbn; lia)) as W2.
  pose proof (wf_out _ _ _ W 0%nat ltac:(cbn; lia)) as WO.
  pose proof (Hin 0%nat ltac:(cbn; lia)) as I0.
  pose proof (Hin 1%nat ltac:(cbn; lia)) as I1.
  pose proof (Hin 2%nat ltac:(cbn; lia)) as I2.
  set (work := List.repeat (c_junk c) (Z.to_nat (n * 8))).
  assert (Hwork : zlen work = n * 8) by (unfold work, zlen; rewrite repeat_length; lia).
  set (p0 := base (Conf sh_bc1_scr_u ins outs) (PI 0)) in *.
  set (p1 := base (Conf sh_bc1_scr_u ins outs) (PI 1)) in *.
  set (p2 := base (Conf sh_bc1_scr_u ins outs) (PI 2)) in *.
  set (q := base (Conf sh_bc1_scr_u ins outs) (PO 0)) in *.
  rewrite I0 in W0. rewrite I1 in W1. rewrite I2 in W2. cbn [buf_of cf_sh] in *.
  change (stride sh_bc1_scr_u (PI 0)) with 2 in *.
  change (stride sh_bc1_scr_u (PI 1)) with 2 in *.
  change (stride sh_bc1_scr_u (PI 2)) with 4 in *.
  change (stride sh_bc1_scr_u (PO 0)) with 8 in *.
  set (ma := Mem (m_in m0) (m_aux m0) work).
  assert (Wa : WF (Conf sh_recorr_split [p0; p1] [Ptr BOut 0]) ma n).
  { constructor; try reflexivity; try exact HN; cbn [cf_sh cf_ins cf_outs].
    - intros [|[|k]] Hk; [| |cbn in Hk; lia]; unfold base; cbn [cf_ins nth].
      + change (stride sh_recorr_split (PI 0)) with 2. rewrite I0. cbn [buf_of ma m_in]. intuition congruence.
      + change (stride sh_recorr_split (PI 1)) with 2. rewrite I1. cbn [buf_of ma m_in]. intuition congruence.
    - intros [|j] Hj; [|cbn in Hj; lia]. unfold base. cbn [cf_outs nth p_buf p_off ma m_out].
      change (stride sh_recorr_split (PO 0)) with 4. rewrite Hwork. repeat apply conj; [reflexivity|lia..].
    - intros [|j] [|j'] Hj Hj'; cbn in Hj, Hj'; lia. }
  destruct (color_batch_recorrelate_ptr_split_ok c v [p0; p1] [Ptr BOut 0] ma n 0 n ma K Hf Logic.I Wa
              ltac:(lia) HN ltac:(lia) (INV_0 _ _ _ _ _)) as (m1 & X1 & J1).
  cbv beta in X1. rewrite !Z.mul_0_l in X1. unfold base in X1. cbn [cf_ins cf_outs nth] in X1.
  rewrite !padd_0 in X1. replace (n * 2) with (2 * n) by lia. rewrite X1. clear X1. cbn [bind].
  set (mb := Mem (m_in m0) (m_out m1) (m_out m0)).
  assert (Hl1 : zlen (m_out m1) = n * 8) by (rewrite (inv_len _ _ _ _ _ _ _ J1); exact Hwork).
  assert (Wb : WF (Conf sh_bc1_std_u [Ptr BAux 0; p2] [q]) mb n).
  { constructor; try reflexivity; try exact HN; cbn [cf_sh cf_ins cf_outs].
    - intros [|[|k]] Hk; [| |cbn in Hk; lia]; unfold base; cbn [cf_ins nth].
      + change (stride sh_bc1_std_u (PI 0)) with 4. cbn [buf_of p_buf p_off mb m_aux]. rewrite Hl1.
        repeat apply conj; [congruence|lia..].
      + change (stride sh_bc1_std_u (PI 1)) with 4. rewrite I2. cbn [buf_of mb m_in]. intuition congruence.
    - intros [|j] Hj; [|cbn in Hj; lia]. unfold base. cbn [cf_outs nth mb m_out].
      change (stride sh_bc1_std_u (PO 0)) with 8. exact WO.
    - intros [|j] [|j'] Hj Hj'; cbn in Hj, Hj'; lia. }
  destruct (bc1_std_u_untransform_with_separate_pointers_ok c [Ptr BAux 0; p2] [q] mb n 0 n mb K eq_refl Logic.I Wb
              ltac:(lia) HN ltac:(lia) (INV_0 _ _ _ _ _)) as (m2 & X2 & J2).
  cbv beta in X2. rewrite !Z.mul_0_l in X2. unfold base in X2. cbn [cf_ins cf_outs nth] in X2.
  rewrite !padd_0 in X2. replace (n * 8) with (8 * n) by lia. rewrite X2. clear X2. cbn [bind].
  eexists. split; [reflexivity|].
  constructor; try reflexivity.
  - cbn [m_out]. apply (inv_len _ _ _ _ _ _ _ J2).
  - intros [|j] b t Hj Hb Ht; [|cbn in Hj; lia]. cbn [m_out].
    change (stride (cf_sh (Conf sh_bc1_scr_u ins outs)) (PO 0)) with 8 in Ht.
    change (at_blk (Conf sh_bc1_scr_u ins outs) b (PO 0)) with (padd q (b * 8)).
    pose proof (inv_done _ _ _ _ _ _ _ J2 0%nat b t ltac:(cbn; lia) ltac:(lia) Ht) as D.
    change (at_blk (Conf sh_bc1_std_u [Ptr BAux 0; p2] [q]) b (PO 0)) with (padd q (b * 8)) in D.
    rewrite D. clear D. cbn [cf_sh].
    assert (A : forall i, 0 <= i < 4 -> znth (m_out m1) (b * 4 + i) =
       seval (c_junk c) v (rdb (Conf sh_recorr_split [p0; p1] [Ptr BOut 0]) ma b)
         (nth (Z.to_nat i) (col Rec 0 0 ++ col Rec 1 0) SJunk)).
    { intros i Hi. exact (inv_done _ _ _ _ _ _ _ J1 0%nat b i ltac:(cbn; lia) ltac:(lia) Hi). }
    assert (C0 : forall i, rdb (Conf sh_recorr_split [p0; p1] [Ptr BOut 0]) ma b 0 i =
                           rdb (Conf sh_bc1_scr_u ins outs) m0 b 0 i).
    { intros i. unfold rdb, at_blk. cbn [padd p_buf p_off base cf_ins nth ma].
      change (nth 0 ins null) with p0. rewrite I0. reflexivity. }
    assert (C1 : forall i, rdb (Conf sh_recorr_split [p0; p1] [Ptr BOut 0]) ma b 1 i =
                           rdb (Conf sh_bc1_scr_u ins outs) m0 b 1 i).
    { intros i. unfold rdb, at_blk. cbn [padd p_buf p_off base cf_ins nth ma].
      change (nth 1 ins null) with p1. rewrite I1. reflexivity. }
    assert (C2 : forall i, rdb (Conf sh_bc1_std_u [Ptr BAux 0; p2] [q]) mb b 1 i =
                           rdb (Conf sh_bc1_scr_u ins outs) m0 b 2 i).
    { intros i. unfold rdb, at_blk. cbn [padd p_buf p_off base cf_ins nth mb].
      change (nth 2 ins null) with p2. rewrite I2. reflexivity. }
    assert (C3 : forall i, rdb (Conf sh_bc1_std_u [Ptr BAux 0; p2] [q]) mb b 0 i = znth (m_out m1) (b * 4 + i)).
    { intros i. reflexivity. }
    assert (Ht' : t = 0 \/ t = 1 \/ t = 2 \/ t = 3 \/ t = 4 \/ t = 5 \/ t = 6 \/ t = 7) by lia.
    destruct Ht' as [-> | [-> | [-> | [-> | [-> | [-> | [-> | ->]]]]]]];
      (nth_now; cbn [seval]; rewrite ?C2, ?C3; rewrite ?A by lia; nth_now; cbn [seval];
       rewrite ?C0, ?C1; reflexivity).
  - intros pos Hpos Hout. cbn [m_out].
    refine (inv_frame _ _ _ _ _ _ _ J2 pos Hpos _).
    intros [|j] Hj; [|cbn in Hj; lia]. exact (Hout 0%nat ltac:(cbn; lia)).
Qed.

Ltac use_ispec A :=
  let m' := fresh "m" in let X := fresh "X" in let I := fresh "I" in
  match goal with W : WF (Conf _ ?ins ?outs) ?m0 ?n, K : cpu_ok _, Hin : _ |- _ =>
  destruct (A ins outs m0 n K) as (m' & X & I);
    [repeat (apply andb_true_iff; split); first [assumption | reflexivity] | first [exact Logic.I | assumption] | exact W | exact Hin |];
    cbv beta in X; rewrite X; cbn [bind]; exists m'; split; [reflexivity | exact I] end.

Lemma bc1_scr_u_untransform_x86_ok : forall c v, ISPEC c v sh_bc1_scr_u (vok v && is_x86 c) (nz_debug c)
  (fun P n m => bc1_scr_u_untransform_with_split_colour_and_recorr_x86 c
                  (P (PI 0)) (P (PI 1)) (P (PI 2)) (P (PO 0)) n v m).
Proof.
  intros c v ins outs m0 n K Hf Hp W Hin. apply andb_true_iff in Hf. destruct Hf as [Hv Hx].
  unfold bc1_scr_u_untransform_with_split_colour_and_recorr_x86.
  pose proof (bc1_scr_u_avx512bw_untransform_with_split_colour_and_recorr_ok c v) as A1.
  apply SPEC_ISPEC in A1; [|intros P P' ? ? Q; cbv beta; rewrite !Q; reflexivity].
  pose proof (bc1_scr_u_avx2_untransform_with_split_colour_and_recorr_ok c v) as A2.
  apply SPEC_ISPEC in A2; [|intros P P' ? ? Q; cbv beta; rewrite !Q; reflexivity].
  pose proof (bc1_scr_u_sse2_untransform_with_split_colour_and_recorr_ok c v) as A3.
  apply SPEC_ISPEC in A3; [|intros P P' ? ? Q; cbv beta; rewrite !Q; reflexivity].
  pose proof (bc1_scr_u_generic_ok c v) as A4.
  assert (B1 : c_avx512bw c = true -> c_avx512f c = true) by apply (ok_512bw c K).
  pose proof (has_sse2_ok c K) as B3.
  unfold has_avx512bw, has_avx2.
  destruct (negb (c_static c)), (c_avx512bw c) eqn:E1;
    try (specialize (B1 eq_refl); use_ispec A1);
    destruct (c_avx2 c) eqn:E2; try use_ispec A2;
    lazymatch goal with
    | |- context [has_sse2 c] => destruct (has_sse2 c) eqn:E3; [specialize (B3 eq_refl) | ]
    | |- _ => clear B3; destruct (c_sse2 c) eqn:E3
    end;
    first [use_ispec A3 | use_ispec A4].
Qed.

Lemma bc1_scr_u_untransform_ok : forall c v, ISPEC c v sh_bc1_scr_u (vok v) (nz_debug c)
  (fun P n m => bc1_scr_u_untransform_with_split_colour_and_recorr c
                  (P (PI 0)) (P (PI 1)) (P (PI 2)) (P (PO 0)) n v m).
Proof.
  intros c v ins outs m0 n K Hv Hp W Hin.
  unfold bc1_scr_u_untransform_with_split_colour_and_recorr.
  destruct (is_x86 c) eqn:E.
  - pose proof (bc1_scr_u_untransform_x86_ok c v) as A1. use_ispec A1.
  - pose proof (bc1_scr_u_generic_ok c v) as A1. use_ispec A1.
Qed.
