(** Proofs/KBc1ScrU.v for a big-endian machine (generated by tools/gen_be.py). *)
From Verif Require Import Base.Bytes Base.Res Model.Color565 Model.Ycc Model.Kernel Model.ColorBatch Model.BigEndian
  Model.GenBeBc1Std Model.GenBeBc1Scr
  Proofs.LanesFacts Proofs.KernelCheck Proofs.KernelLoop Proofs.KernelFun Proofs.Shapes Proofs.BeShapes
  Proofs.KBc1ScrU Proofs.KBeBc1Std Proofs.KBeBc1Scr.
From Coq Require Import ZifyBool ZifyNat.

(** Two colour sections, recorrelated and put together. *)
Definition sh_be_recorr_split := Shape [2; 2] [bcol Rec 0 0 ++ bcol Rec 1 0].

Lemma be_color_batch_recorrelate_ptr_split_ok : forall c v, SPEC c v sh_be_recorr_split (vok v) any_n
  (fun P n m => be_color_batch_recorrelate_ptr_split c (P (PI 0)) (P (PI 1)) (P (PO 0)) (2 * n) v m).
Proof.
  intros c v. kstart be_color_batch_recorrelate_ptr_split.
  replace (be_body match v with VNone => color_batch_copy_split_body | _ => color_batch_recorr_split_body end)
    with (be_body color_batch_recorr_split_body) by (destruct v; first [reflexivity | discriminate Hf]).
  replace (2 * n / 2 * 2) with (2 * n) by lia.
  kauto ltac:(fail).
Qed.


Lemma be_bc1_scr_u_generic_ok : forall c v, ISPEC c v sh_be_bc1_scr_u (vok v) any_n
  (fun P n m => be_bc1_scr_u_generic_untransform_with_split_colour_and_recorr_generic c
                  (P (PI 0)) (P (PI 1)) (P (PI 2)) (P (PO 0)) n v m).
Proof.
  intros c v ins outs m0 n K Hf Hp W Hin.
  unfold be_bc1_scr_u_generic_untransform_with_split_colour_and_recorr_generic.
  destruct (128 <=? n) eqn:E.
  2:{ destruct v; try discriminate Hf.
      - ispec_of (be_bc1_scr_u_generic_untransform_recorr_var1_ok c).
      - ispec_of (be_bc1_scr_u_generic_untransform_recorr_var2_ok c).
      - ispec_of (be_bc1_scr_u_generic_untransform_recorr_var3_ok c). }
  pose proof (wf_N _ _ _ W) as HN.
  pose proof (wf_in _ _ _ W 0%nat ltac:(cbn; lia)) as W0.
  pose proof (wf_in _ _ _ W 1%nat ltac:(cbn; lia)) as W1.
  pose proof (wf_in _ _ _ W 2%nat ltac:(cbn; lia)) as W2.
  pose proof (wf_out _ _ _ W 0%nat ltac:(cbn; lia)) as WO.
  pose proof (Hin 0%nat ltac:(cbn; lia)) as I0.
  pose proof (Hin 1%nat ltac:(cbn; lia)) as I1.
  pose proof (Hin 2%nat ltac:(cbn; lia)) as I2.
  set (work := List.repeat (c_junk c) (Z.to_nat (n * 8))).
  assert (Hwork : zlen work = n * 8) by (unfold work, zlen; rewrite repeat_length; lia).
  set (p0 := base (Conf sh_be_bc1_scr_u ins outs) (PI 0)) in *.
  set (p1 := base (Conf sh_be_bc1_scr_u ins outs) (PI 1)) in *.
  set (p2 := base (Conf sh_be_bc1_scr_u ins outs) (PI 2)) in *.
  set (q := base (Conf sh_be_bc1_scr_u ins outs) (PO 0)) in *.
  rewrite I0 in W0. rewrite I1 in W1. rewrite I2 in W2. cbn [buf_of cf_sh] in *.
  change (stride sh_be_bc1_scr_u (PI 0)) with 2 in *.
  change (stride sh_be_bc1_scr_u (PI 1)) with 2 in *.
  change (stride sh_be_bc1_scr_u (PI 2)) with 4 in *.
  change (stride sh_be_bc1_scr_u (PO 0)) with 8 in *.
  set (ma := Mem (m_in m0) (m_aux m0) work).
  assert (Wa : WF (Conf sh_be_recorr_split [p0; p1] [Ptr BOut 0]) ma n).
  { constructor; try reflexivity; try exact HN; cbn [cf_sh cf_ins cf_outs].
    - intros [|[|k]] Hk; [| |cbn in Hk; lia]; unfold base; cbn [cf_ins nth].
      + change (stride sh_be_recorr_split (PI 0)) with 2. rewrite I0. cbn [buf_of ma m_in]. intuition congruence.
      + change (stride sh_be_recorr_split (PI 1)) with 2. rewrite I1. cbn [buf_of ma m_in]. intuition congruence.
    - intros [|j] Hj; [|cbn in Hj; lia]. unfold base. cbn [cf_outs nth p_buf p_off ma m_out].
      change (stride sh_be_recorr_split (PO 0)) with 4. rewrite Hwork. repeat apply conj; [reflexivity|lia..].
    - intros [|j] [|j'] Hj Hj'; cbn in Hj, Hj'; lia. }
  destruct (be_color_batch_recorrelate_ptr_split_ok c v [p0; p1] [Ptr BOut 0] ma n 0 n ma K Hf Logic.I Wa
              ltac:(lia) HN ltac:(lia) (INV_0 _ _ _ _ _)) as (m1 & X1 & J1).
  cbv beta in X1. rewrite !Z.mul_0_l in X1. unfold base in X1. cbn [cf_ins cf_outs nth] in X1.
  rewrite !padd_0 in X1. replace (n * 2) with (2 * n) by lia. rewrite X1. clear X1. cbn [bind].
  set (mb := Mem (m_in m0) (m_out m1) (m_out m0)).
  assert (Hl1 : zlen (m_out m1) = n * 8) by (rewrite (inv_len _ _ _ _ _ _ _ J1); exact Hwork).
  assert (Wb : WF (Conf sh_bc1_std_u [Ptr BAux 0; p2] [q]) mb n).
  { constructor; try reflexivity; try exact HN; cbn [cf_sh cf_ins cf_outs].
    - intros [|[|k]] Hk; [| |cbn in Hk; lia]; unfold base; cbn [cf_ins nth].
      + change (stride sh_bc1_std_u (PI 0)) with 4. cbn [buf_of p_buf p_off mb m_aux]. rewrite Hl1.
        repeat apply conj; [congruence|lia..].
      + change (stride sh_bc1_std_u (PI 1)) with 4. rewrite I2. cbn [buf_of mb m_in]. intuition congruence.
    - intros [|j] Hj; [|cbn in Hj; lia]. unfold base. cbn [cf_outs nth mb m_out].
      change (stride sh_bc1_std_u (PO 0)) with 8. exact WO.
    - intros [|j] [|j'] Hj Hj'; cbn in Hj, Hj'; lia. }
  destruct (be_bc1_std_u_untransform_with_separate_pointers_ok c [Ptr BAux 0; p2] [q] mb n 0 n mb K eq_refl Logic.I Wb
              ltac:(lia) HN ltac:(lia) (INV_0 _ _ _ _ _)) as (m2 & X2 & J2).
  cbv beta in X2. rewrite !Z.mul_0_l in X2. unfold base in X2. cbn [cf_ins cf_outs nth] in X2.
  rewrite !padd_0 in X2. replace (n * 8) with (8 * n) by lia. rewrite X2. clear X2. cbn [bind].
  eexists. split; [reflexivity|].
  constructor; try reflexivity.
  - cbn [m_out]. apply (inv_len _ _ _ _ _ _ _ J2).
  - intros [|j] b t Hj Hb Ht; [|cbn in Hj; lia]. cbn [m_out].
    change (stride (cf_sh (Conf sh_be_bc1_scr_u ins outs)) (PO 0)) with 8 in Ht.
    change (at_blk (Conf sh_be_bc1_scr_u ins outs) b (PO 0)) with (padd q (b * 8)).
    pose proof (inv_done _ _ _ _ _ _ _ J2 0%nat b t ltac:(cbn; lia) ltac:(lia) Ht) as D.
    change (at_blk (Conf sh_bc1_std_u [Ptr BAux 0; p2] [q]) b (PO 0)) with (padd q (b * 8)) in D.
    rewrite D. clear D. cbn [cf_sh].
    assert (A : forall i, 0 <= i < 4 -> znth (m_out m1) (b * 4 + i) =
       seval (c_junk c) v (rdb (Conf sh_be_recorr_split [p0; p1] [Ptr BOut 0]) ma b)
         (nth (Z.to_nat i) (bcol Rec 0 0 ++ bcol Rec 1 0) SJunk)).
    { intros i Hi. exact (inv_done _ _ _ _ _ _ _ J1 0%nat b i ltac:(cbn; lia) ltac:(lia) Hi). }
    assert (C0 : forall i, rdb (Conf sh_be_recorr_split [p0; p1] [Ptr BOut 0]) ma b 0 i =
                           rdb (Conf sh_be_bc1_scr_u ins outs) m0 b 0 i).
    { intros i. unfold rdb, at_blk. cbn [padd p_buf p_off base cf_ins nth ma].
      change (nth 0 ins null) with p0. rewrite I0. reflexivity. }
    assert (C1 : forall i, rdb (Conf sh_be_recorr_split [p0; p1] [Ptr BOut 0]) ma b 1 i =
                           rdb (Conf sh_be_bc1_scr_u ins outs) m0 b 1 i).
    { intros i. unfold rdb, at_blk. cbn [padd p_buf p_off base cf_ins nth ma].
      change (nth 1 ins null) with p1. rewrite I1. reflexivity. }
    assert (C2 : forall i, rdb (Conf sh_bc1_std_u [Ptr BAux 0; p2] [q]) mb b 1 i =
                           rdb (Conf sh_be_bc1_scr_u ins outs) m0 b 2 i).
    { intros i. unfold rdb, at_blk. cbn [padd p_buf p_off base cf_ins nth mb].
      change (nth 2 ins null) with p2. rewrite I2. reflexivity. }
    assert (C3 : forall i, rdb (Conf sh_bc1_std_u [Ptr BAux 0; p2] [q]) mb b 0 i = znth (m_out m1) (b * 4 + i)).
    { intros i. reflexivity. }
    assert (Ht' : t = 0 \/ t = 1 \/ t = 2 \/ t = 3 \/ t = 4 \/ t = 5 \/ t = 6 \/ t = 7) by lia.
    destruct Ht' as [-> | [-> | [-> | [-> | [-> | [-> | [-> | ->]]]]]]];
      (nth_now; cbn [seval]; rewrite ?C2, ?C3; rewrite ?A by lia; nth_now; cbn [seval];
       rewrite ?C0, ?C1; reflexivity).
  - intros pos Hpos Hout. cbn [m_out].
    refine (inv_frame _ _ _ _ _ _ _ J2 pos Hpos _).
    intros [|j] Hj; [|cbn in Hj; lia]. exact (Hout 0%nat ltac:(cbn; lia)).
Qed.

Ltac use_ispec A :=
  let m' := fresh "m" in let X := fresh "X" in let I := fresh "I" in
  match goal with W : WF (Conf _ ?ins ?outs) ?m0 ?n, K : cpu_ok _, Hin : _ |- _ =>
  destruct (A ins outs m0 n K) as (m' & X & I);
    [repeat (apply andb_true_iff; split); first [assumption | reflexivity] | first [exact Logic.I | assumption] | exact W | exact Hin |];
    cbv beta in X; rewrite X; cbn [bind]; exists m'; split; [reflexivity | exact I] end.

Lemma be_bc1_scr_u_untransform_ok : forall c v, ISPEC c v sh_be_bc1_scr_u (vok v) any_n
  (fun P n m => be_bc1_scr_u_untransform_with_split_colour_and_recorr c
                  (P (PI 0)) (P (PI 1)) (P (PI 2)) (P (PO 0)) n v m).
Proof.
  intros c v ins outs m0 n K Hv Hp W Hin.
  unfold be_bc1_scr_u_untransform_with_split_colour_and_recorr.
  pose proof (be_bc1_scr_u_generic_ok c v) as A1. use_ispec A1.
Qed.
