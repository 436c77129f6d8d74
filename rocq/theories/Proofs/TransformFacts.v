(** The entry points produce the specified layout. *)
From Verif Require Import Base.Bytes Base.Res Model.Color565 Model.Ycc Model.Kernel
  Model.GenBc1Std Model.GenBc1Rec Model.GenBc1Sc Model.GenBc1Scr
  Model.GenBc2Std Model.GenBc2Rec Model.GenBc2Sc Model.GenBc2Scr
  Model.GenBc3Std Model.GenBc3Rec Model.GenBc3Sc Model.GenBc3Scr
  Model.GenBc3Sa Model.GenBc3Sar Model.GenBc3Sac Model.GenBc3Sacr Model.Transform
  Proofs.KernelCheck Proofs.KernelLoop Proofs.KernelFun Proofs.Shapes Spec.YCoCg Spec.Layout
  Proofs.LayoutFacts Proofs.ShapeLayout Proofs.Families
  Proofs.KBc1Std Proofs.KBc1Rec Proofs.KBc1Sc Proofs.KBc1Scr Proofs.KBc1ScrU
  Proofs.KBc2Std Proofs.KBc2Rec Proofs.KBc2Sc Proofs.KBc2Scr
  Proofs.KBc3Std Proofs.KBc3Rec Proofs.KBc3Sc Proofs.KBc3Scr
  Proofs.KBc3Sa Proofs.KBc3Sar Proofs.KBc3Sac Proofs.KBc3Sacr.
From Coq Require Import ZifyBool ZifyNat.

(** What running a kernel from byte [a] of the input to byte [b] of the output gives. *)
Definition RUN (c : cfg) (v : variant) (sh : shape) (feats : bool) (pre : Z -> Prop)
  (call : (pid -> ptr) -> Z -> mem -> res mem) : Prop :=
  forall a b N m, cpu_ok c -> feats = true -> pre N -> 0 <= a -> 0 <= b -> 0 <= N ->
  a + N * total (sh_ins sh) <= zlen (m_in m) ->
  b + N * total (map zlen (sh_outs sh)) <= zlen (m_out m) ->
  call (base (cconf sh a b N)) N m =
  Ok (Mem (m_in m) (m_aux m) (splice (m_out m) b (sh_out (c_junk c) v sh a N (m_in m)))).

Definition EXT (call : (pid -> ptr) -> Z -> mem -> res mem) : Prop :=
  forall P P' n m, (forall x, P x = P' x) -> call P n m = call P' n m.

Lemma ISPEC_RUN : forall c v sh feats pre call, shape_fine sh ->
  ISPEC c v sh feats pre call -> RUN c v sh feats pre call.
Proof.
  intros c v sh feats pre call F S a b N m K Hf Hp Ha Hb HN Hi Ho.
  destruct (S (cf_ins (cconf sh a b N)) (cf_outs (cconf sh a b N)) m N K Hf Hp
              (WF_cconf sh a b N m F Ha Hb HN Hi Ho)) as (m' & X & I).
  - intros k Hk. change (Conf sh _ _) with (cconf sh a b N). rewrite base_in by exact Hk. reflexivity.
  - change (Conf sh _ _) with (cconf sh a b N) in *. rewrite X. f_equal.
    exact (INV_done _ _ _ _ _ _ _ _ F Ha Hb HN Hi Ho I).
Qed.

Lemma SPEC_RUN : forall c v sh feats pre call, shape_fine sh -> EXT call ->
  SPEC c v sh feats pre call -> RUN c v sh feats pre call.
Proof. intros. apply ISPEC_RUN; [assumption|]. apply SPEC_ISPEC; assumption. Qed.

Lemma TSPEC_RUN : forall c v sh feats pre call, shape_fine sh -> EXT call ->
  TSPEC c v sh feats pre call -> RUN c v sh feats pre call.
Proof.
  intros c v sh feats pre call F He S a b N m K Hf Hp Ha Hb HN Hi Ho.
  destruct (S (cf_ins (cconf sh a b N)) (cf_outs (cconf sh a b N)) m N m K Hf Hp
              (WF_cconf sh a b N m F Ha Hb HN Hi Ho) (CONTIG_cconf sh a b N) HN (INV_0 _ _ _ _ _)) as (m' & X & I).
  change (Conf sh _ _) with (cconf sh a b N) in *.
  rewrite (He (base (cconf sh a b N)) (fun x => padd (base (cconf sh a b N) x) 0)).
  - rewrite X. f_equal. exact (INV_done _ _ _ _ _ _ _ _ F Ha Hb HN Hi Ho I).
  - intros x. rewrite padd_0. reflexivity.
Qed.

Ltac to_run H F :=
  let Q := fresh "Q" in
  pose proof H as Q;
  lazymatch type of Q with
  | ISPEC _ _ _ _ _ _ => apply ISPEC_RUN in Q; [|exact F]
  | SPEC _ _ _ _ _ _ => apply SPEC_RUN in Q; [|exact F | intros ? ? ? ? E'; cbv beta; rewrite !E'; reflexivity]
  | TSPEC _ _ _ _ _ _ => apply TSPEC_RUN in Q; [|exact F | intros ? ? ? ? E'; cbv beta; rewrite !E'; reflexivity]
  end.

Lemma total_t : forall v sht shu k fs ws, FAM v sht shu k fs ws ->
  total (sh_ins sht) = Z.of_nat k /\ total (map zlen (sh_outs sht)) = Z.of_nat k /\
  total (sh_ins shu) = Z.of_nat k /\ total (map zlen (sh_outs shu)) = Z.of_nat k.
Proof.
  intros v sht shu k fs ws H.
  assert (E1 : total (sh_ins sht) = Z.of_nat k) by (rewrite (fam_it _ _ _ _ _ _ H); simpl; lia).
  assert (E3 : total (sh_ins shu) = Z.of_nat k).
  { rewrite (fam_iu _ _ _ _ _ _ H), <- sum_total, (fam_sum _ _ _ _ _ _ H). reflexivity. }
  assert (E4 : total (map zlen (sh_outs shu)) = Z.of_nat k).
  { destruct (fam_ou _ _ _ _ _ _ H) as (t & -> & Ht & _). simpl. unfold zlen. rewrite Ht. lia. }
  repeat apply conj; try assumption.
  rewrite <- (fam_sum _ _ _ _ _ _ H), sum_total. f_equal.
  pose proof (fam_ot _ _ _ _ _ _ H) as A. pose proof (fam_fw _ _ _ _ _ _ H) as B.
  revert B A. generalize (sh_outs sht) as ts. clear.
  intros ts B. revert ts. induction B as [|f w fs ws Hf B IH]; intros ts A; inversion A; subst; [reflexivity|].
  cbn [map]. f_equal; [|apply IH; assumption].
  match goal with H : tmpl_field _ _ _ _ |- _ => specialize (H (List.repeat x00 k) (repeat_length _ _)); rename H into HH end.
  specialize (Hf (List.repeat x00 k) (repeat_length _ _)). rewrite <- Hf, <- HH. unfold zlen. rewrite map_length. reflexivity.
Qed.

(** [blocks] of a whole number of blocks *)
Lemma blocks_chunks : forall k l N, (0 < k)%nat -> 0 <= N -> zlen l = N * Z.of_nat k -> blocks k l = chunks k (Z.to_nat N) l.
Proof.
  intros k l N Hk HN H. unfold blocks. f_equal. unfold zlen in H.
  replace (List.length l) with (Z.to_nat N * k)%nat by nia. apply Nat.div_mul. lia.
Qed.

(** The two halves of every family. *)
Lemma FAM_transform : forall v sht shu k fs ws junk a N inp, FAM v sht shu k fs ws -> (0 < k)%nat ->
  0 <= a -> 0 <= N -> a + N * Z.of_nat k <= zlen inp ->
  sh_out junk v sht a N inp = lay fs (blocks k (slice inp a (N * Z.of_nat k))).
Proof.
  intros v sht shu k fs ws junk a N inp H Hk Ha HN Hl.
  rewrite (blocks_chunks k _ N) by first [lia | rewrite zlen_slice; nia].
  apply sh_out_lay; try assumption.
  - apply (fam_ft _ _ _ _ _ _ H).
  - apply (fam_it _ _ _ _ _ _ H).
  - apply (fam_ot _ _ _ _ _ _ H).
Qed.

(** [y] is the block data whose layout is [x]. *)
Definition inverse_of (k : nat) (fs : list field) (x y : list byte) : Prop :=
  List.length y = List.length x /\ lay fs (blocks k y) = x.

Lemma FAM_untransform : forall v sht shu k fs ws junk a N inp, FAM v sht shu k fs ws -> (0 < k)%nat ->
  0 <= a -> 0 <= N -> a + N * Z.of_nat k <= zlen inp ->
  inverse_of k fs (slice inp a (N * Z.of_nat k)) (sh_out junk v shu a N inp).
Proof.
  intros v sht shu k fs ws junk a N inp H Hk Ha HN Hl.
  destruct (total_t _ _ _ _ _ _ H) as (_ & _ & T & _).
  destruct (fam_ou _ _ _ _ _ _ H) as (t & Ht & Hlt & Hinv & Hreb).
  rewrite (sh_out_unlay junk v shu ws t) by
    first [apply (fam_fu _ _ _ _ _ _ H) | apply (fam_iu _ _ _ _ _ _ H) | assumption | rewrite T; assumption].
  rewrite T. set (x := slice inp a (N * Z.of_nat k)).
  assert (Hx : List.length x = (Z.to_nat N * sum ws)%nat).
  { rewrite (fam_sum _ _ _ _ _ _ H). pose proof (zlen_slice _ inp a (N * Z.of_nat k) ltac:(lia) ltac:(nia) ltac:(lia)) as Z.
    unfold zlen in Z. fold x in Z. nia. }
  assert (Hy : List.length (unlay ws (tmpl_blk v t) (Z.to_nat N) x) = (Z.to_nat N * k)%nat)
    by (apply (unlay_length k fs); assumption).
  split.
  - rewrite Hy, Hx, (fam_sum _ _ _ _ _ _ H). reflexivity.
  - rewrite (blocks_chunks k _ N) by (unfold zlen; lia).
    apply lay_unlay; try assumption.
    pose proof (fam_fw _ _ _ _ _ _ H) as FW. clear -FW. induction FW; simpl; congruence.
Qed.

(** The layout determines the blocks. *)
Lemma FAM_injective : forall v sht shu k fs ws x y y', FAM v sht shu k fs ws -> (0 < k)%nat ->
  (List.length x mod k = 0)%nat -> inverse_of k fs x y -> inverse_of k fs x y' -> y = y'.
Proof.
  intros v sht shu k fs ws x y y' H Hk Hm [L E] [L' E'].
  destruct (fam_ou _ _ _ _ _ _ H) as (t & Ht & Hlt & Hinv & Hreb).
  assert (D : List.length x = (List.length x / k * k)%nat) by (pose proof (Nat.div_mod (List.length x) k); lia).
  assert (A : forall z, List.length z = List.length x -> lay fs (blocks k z) = x ->
    z = unlay ws (tmpl_blk v t) (List.length x / k) x).
  { intros z Lz Ez. rewrite <- Ez at 2. unfold blocks. rewrite Lz. symmetry.
    apply (unlay_lay k); [apply (fam_fw _ _ _ _ _ _ H)|lia|exact Hinv]. }
  rewrite (A y), (A y'); auto.
Qed.

Lemma lay_zlen : forall v sht shu k fs ws l, FAM v sht shu k fs ws -> (0 < k)%nat -> zlen l mod Z.of_nat k = 0 ->
  zlen (lay fs (blocks k l)) = zlen l.
Proof.
  intros v sht shu k fs ws l H Hk Hm. unfold zlen, blocks in *.
  assert (Hd : Z.of_nat (List.length l / k) * Z.of_nat k = Z.of_nat (List.length l)) by nia.
  rewrite (lay_length k fs ws); [rewrite chunks_length, (fam_sum _ _ _ _ _ _ H); nia|apply (fam_fw _ _ _ _ _ _ H)|].
  intros b Hb. apply (chunks_in k (List.length l / k) l); [nia|exact Hb].
Qed.

(** ** BC1, BC2, BC3 through pointers *)

(** In debug builds the split-colour kernels assert that there is a block. *)
Definition nonempty (c : cfg) (N : Z) : Prop := c_debug c = true -> 0 < N.

Lemma ptr_add_in : forall m p k, 0 <= p_off p + k <= zlen (buf_of m (p_buf p)) -> ptr_add m p k = Ok (padd p k).
Proof. intros. unfold ptr_add. replace ((_ <=? _) && _) with true by lia. reflexivity. Qed.

Lemma debug_assert_t : forall d s, debug_assert d true s = Ok tt.
Proof. intros [] s; reflexivity. Qed.

Ltac bases X :=
  repeat first [rewrite base_in in X by (cbn; lia) | rewrite base_out in X by (cbn; lia)];
  repeat match type of X with context [presum ?l ?j] =>
    let r := eval vm_compute in (presum l j) in change (presum l j) with r in X end.

Ltac kernel lem fam a b N m :=
  let FM := fresh "FM" in
  pose proof fam as FM;
  let Q := fresh "Q" in
  pose proof lem as Q;
  lazymatch type of Q with
  | ISPEC _ _ _ _ _ _ => apply ISPEC_RUN in Q; [|solve [apply FM]]
  | SPEC _ _ _ _ _ _ => apply SPEC_RUN in Q; [|solve [apply FM] | intros ? ? ? ? E'; cbv beta; rewrite !E'; reflexivity]
  | TSPEC _ _ _ _ _ _ => apply TSPEC_RUN in Q; [|solve [apply FM] | intros ? ? ? ? E'; cbv beta; rewrite !E'; reflexivity]
  end;
  destruct (total_t _ _ _ _ _ _ FM) as (T1 & T2 & T3 & T4);
  specialize (Q a b N m); rewrite ?T1, ?T2, ?T3, ?T4 in Q; cbv beta in Q;
  let X := fresh "X" in
  assert (X := Q ltac:(assumption) ltac:(first [reflexivity | assumption | apply andb_true_intro; split; assumption])
                 ltac:(first [exact I | match goal with HD : _ -> nonempty _ _ |- _ => exact (HD eq_refl) end])
                 ltac:(assumption) ltac:(assumption) ltac:(assumption) ltac:(cbn [Z.of_nat Pos.of_succ_nat Pos.succ]; lia)
                 ltac:(cbn [Z.of_nat Pos.of_succ_nat Pos.succ]; lia));
  clear Q; bases X;
  repeat (rewrite ptr_add_in by (cbn [p_buf p_off buf_of]; lia); cbn [bind]);
  unfold padd; cbn [p_buf p_off];
  lazymatch type of X with ?l = _ =>
    lazymatch goal with
    | |- ?g = Ok _ => replace g with l by (f_equal; try (f_equal; lia); lia); rewrite X
    | |- exists y, ?g = Ok _ /\ _ => replace g with l by (f_equal; try (f_equal; lia); lia); rewrite X
    end
  end;
  clear X T1 T2 T3 T4.

Ltac fin_t a N m :=
  lazymatch goal with FM : FAM _ _ _ ?k _ _ |- _ =>
    rewrite (FAM_transform _ _ _ _ _ _ _ _ _ _ FM) by (cbn [Z.of_nat Pos.of_succ_nat Pos.succ]; lia);
    let n := eval vm_compute in (Z.of_nat k) in
    replace (N * Z.of_nat k) with (n * N) by (cbn [Z.of_nat Pos.of_succ_nat Pos.succ]; lia); reflexivity
  end.
Ltac fin_u a N m :=
  lazymatch goal with FM : FAM _ _ _ ?k _ _ |- _ =>
    eexists; split; [reflexivity|];
    let n := eval vm_compute in (Z.of_nat k) in
    replace (n * N) with (N * Z.of_nat k) by (cbn [Z.of_nat Pos.of_succ_nat Pos.succ]; lia);
    apply (FAM_untransform _ _ _ _ _ _ _ _ _ _ FM); cbn [Z.of_nat Pos.of_succ_nat Pos.succ]; lia
  end.

Section Bc1.
Variables (c : cfg) (s : settings) (a b N : Z) (m : mem).
Hypotheses (K : cpu_ok c) (HD : split_colour_endpoints s = true -> nonempty c N)
  (Ha : 0 <= a) (Hb : 0 <= b) (HN : 0 <= N)
  (Hi : a + 8 * N <= zlen (m_in m)) (Ho : b + 8 * N <= zlen (m_out m)).

Lemma transform_bc1_ptr : transform_bc1_with_settings c (Ptr BIn a) (Ptr BOut b) (8 * N) s m =
  Ok (Mem (m_in m) (m_aux m) (splice (m_out m) b (bc1_layout (decorrelation_mode s) (split_colour_endpoints s) (slice (m_in m) a (8 * N))))).
Proof.
  destruct s as [v sp]. cbn [decorrelation_mode split_colour_endpoints] in *. unfold transform_bc1_with_settings.
  cbn [decorrelation_mode split_colour_endpoints]. replace (8 * N mod 8 =? 0) with true by lia.
  rewrite debug_assert_t. cbn [bind]. cbv zeta.
  destruct sp.
  { destruct (variant_eqb v VNone) eqn:EV; cbn [negb].
    { destruct v; try discriminate EV. kernel (bc1_sc_t_transform_with_split_colour_ok c) fam_bc1_sc a b N m. fin_t a N m. }
    { assert (VO : vok v = true) by (destruct v; [discriminate EV|reflexivity..]). kernel (bc1_scr_t_transform_with_split_colour_and_recorr_ok c v) (fam_bc1_scr v) a b N m. fin_t a N m. } }
  { destruct (variant_eqb v VNone) eqn:EV; cbn [negb].
    { destruct v; try discriminate EV. kernel (bc1_std_t_transform_ok c) fam_bc1_std a b N m. fin_t a N m. }
    { assert (VO : vok v = true) by (destruct v; [discriminate EV|reflexivity..]). kernel (bc1_rec_t_transform_with_decorrelate_ok c v) (fam_bc1_rec v) a b N m. fin_t a N m. } }
Qed.

Lemma untransform_bc1_ptr : exists y, untransform_bc1_with_settings c (Ptr BIn a) (Ptr BOut b) (8 * N) s m =
  Ok (Mem (m_in m) (m_aux m) (splice (m_out m) b y)) /\
  inverse_of 8 (bc1_fields (decorrelation_mode s) (split_colour_endpoints s)) (slice (m_in m) a (8 * N)) y.
Proof.
  destruct s as [v sp]. cbn [decorrelation_mode split_colour_endpoints] in *. unfold untransform_bc1_with_settings.
  cbn [decorrelation_mode split_colour_endpoints]. replace (8 * N mod 8 =? 0) with true by lia.
  rewrite debug_assert_t. cbn [bind]. cbv zeta.
  destruct sp.
  { destruct (variant_eqb v VNone) eqn:EV; cbn [negb].
    { destruct v; try discriminate EV. kernel (bc1_sc_u_untransform_with_split_colour_ok c) fam_bc1_sc a b N m. fin_u a N m. }
    { assert (VO : vok v = true) by (destruct v; [discriminate EV|reflexivity..]). kernel (bc1_scr_u_untransform_ok c v) (fam_bc1_scr v) a b N m. fin_u a N m. } }
  { destruct (variant_eqb v VNone) eqn:EV; cbn [negb].
    { destruct v; try discriminate EV. kernel (bc1_std_u_untransform_ok c) fam_bc1_std a b N m. fin_u a N m. }
    { assert (VO : vok v = true) by (destruct v; [discriminate EV|reflexivity..]). kernel (bc1_rec_u_untransform_with_recorrelate_ok c v) (fam_bc1_rec v) a b N m. fin_u a N m. } }
Qed.

End Bc1.

Section Bc2.
Variables (c : cfg) (s : settings) (a b N : Z) (m : mem).
Hypotheses (K : cpu_ok c)
  (Ha : 0 <= a) (Hb : 0 <= b) (HN : 0 <= N)
  (Hi : a + 16 * N <= zlen (m_in m)) (Ho : b + 16 * N <= zlen (m_out m)).

Lemma transform_bc2_ptr : vl_ok c = true -> transform_bc2_with_settings c (Ptr BIn a) (Ptr BOut b) (16 * N) s m =
  Ok (Mem (m_in m) (m_aux m) (splice (m_out m) b (bc2_layout (decorrelation_mode s) (split_colour_endpoints s) (slice (m_in m) a (16 * N))))).
Proof.
  intros VL.
  destruct s as [v sp]. cbn [decorrelation_mode split_colour_endpoints] in *. unfold transform_bc2_with_settings.
  cbn [decorrelation_mode split_colour_endpoints]. replace (16 * N mod 16 =? 0) with true by lia.
  rewrite debug_assert_t. cbn [bind]. cbv zeta.
  destruct sp.
  { destruct (variant_eqb v VNone) eqn:EV; cbn [negb].
    { destruct v; try discriminate EV. kernel (bc2_sc_t_transform_with_split_colour_ok c) fam_bc2_sc a b N m. fin_t a N m. }
    { assert (VO : vok v = true) by (destruct v; [discriminate EV|reflexivity..]). kernel (bc2_scr_t_transform_with_split_colour_and_recorr_ok c v) (fam_bc2_scr v) a b N m. fin_t a N m. } }
  { destruct (variant_eqb v VNone) eqn:EV; cbn [negb].
    { destruct v; try discriminate EV. kernel (bc2_std_t_transform_ok c) fam_bc2_std a b N m. fin_t a N m. }
    { assert (VO : vok v = true) by (destruct v; [discriminate EV|reflexivity..]). kernel (bc2_rec_t_transform_with_decorrelate_ok c v) (fam_bc2_rec v) a b N m. fin_t a N m. } }
Qed.

Lemma untransform_bc2_ptr : exists y, untransform_bc2_with_settings c (Ptr BIn a) (Ptr BOut b) (16 * N) s m =
  Ok (Mem (m_in m) (m_aux m) (splice (m_out m) b y)) /\
  inverse_of 16 (bc2_fields (decorrelation_mode s) (split_colour_endpoints s)) (slice (m_in m) a (16 * N)) y.
Proof.
  destruct s as [v sp]. cbn [decorrelation_mode split_colour_endpoints] in *. unfold untransform_bc2_with_settings.
  cbn [decorrelation_mode split_colour_endpoints]. replace (16 * N mod 16 =? 0) with true by lia.
  rewrite debug_assert_t. cbn [bind]. cbv zeta.
  destruct sp.
  { destruct (variant_eqb v VNone) eqn:EV; cbn [negb].
    { destruct v; try discriminate EV. kernel (bc2_sc_u_untransform_with_split_colour_ok c) fam_bc2_sc a b N m. fin_u a N m. }
    { assert (VO : vok v = true) by (destruct v; [discriminate EV|reflexivity..]). kernel (bc2_scr_u_untransform_with_split_colour_and_recorr_ok c v) (fam_bc2_scr v) a b N m. fin_u a N m. } }
  { destruct (variant_eqb v VNone) eqn:EV; cbn [negb].
    { destruct v; try discriminate EV. kernel (bc2_std_u_untransform_ok c) fam_bc2_std a b N m. fin_u a N m. }
    { assert (VO : vok v = true) by (destruct v; [discriminate EV|reflexivity..]). kernel (bc2_rec_u_untransform_with_recorrelate_ok c v) (fam_bc2_rec v) a b N m. fin_u a N m. } }
Qed.

End Bc2.

Section Bc3.
Variables (c : cfg) (s : settings3) (a b N : Z) (m : mem).
Hypotheses (K : cpu_ok c) (HD : split_alpha_endpoints s = true -> nonempty c N)
  (Ha : 0 <= a) (Hb : 0 <= b) (HN : 0 <= N)
  (Hi : a + 16 * N <= zlen (m_in m)) (Ho : b + 16 * N <= zlen (m_out m)).

Lemma transform_bc3_ptr : transform_bc3_with_settings c (Ptr BIn a) (Ptr BOut b) (16 * N) s m =
  Ok (Mem (m_in m) (m_aux m) (splice (m_out m) b (bc3_layout (decorrelation_mode3 s) (split_alpha_endpoints s) (split_colour_endpoints3 s) (slice (m_in m) a (16 * N))))).
Proof.
  destruct s as [v sa sp]. cbn [decorrelation_mode3 split_alpha_endpoints split_colour_endpoints3] in *. unfold transform_bc3_with_settings.
  cbn [decorrelation_mode3 split_alpha_endpoints split_colour_endpoints3]. replace (16 * N mod 16 =? 0) with true by lia.
  rewrite debug_assert_t. cbn [bind]. cbv zeta.
  destruct sa; destruct sp.
  { destruct (variant_eqb v VNone) eqn:EV; cbn [negb].
    { destruct v; try discriminate EV. kernel (bc3_sac_t_transform_with_split_alphas_and_colour_ok c) fam_bc3_sac a b N m. fin_t a N m. }
    { assert (VO : vok v = true) by (destruct v; [discriminate EV|reflexivity..]). kernel (bc3_sacr_t_transform_with_split_alphas_colour_and_recorr_ok c v) (fam_bc3_sacr v) a b N m. fin_t a N m. } }
  { destruct (variant_eqb v VNone) eqn:EV; cbn [negb].
    { destruct v; try discriminate EV. kernel (bc3_sa_t_transform_with_split_alphas_ok c) fam_bc3_sa a b N m. fin_t a N m. }
    { assert (VO : vok v = true) by (destruct v; [discriminate EV|reflexivity..]). kernel (bc3_sar_t_transform_with_split_alphas_and_recorr_ok c v) (fam_bc3_sar v) a b N m. fin_t a N m. } }
  { destruct (variant_eqb v VNone) eqn:EV; cbn [negb].
    { destruct v; try discriminate EV. kernel (bc3_sc_t_transform_with_split_colour_ok c) fam_bc3_sc a b N m. fin_t a N m. }
    { assert (VO : vok v = true) by (destruct v; [discriminate EV|reflexivity..]). kernel (bc3_scr_t_transform_with_split_colour_and_recorr_ok c v) (fam_bc3_scr v) a b N m. fin_t a N m. } }
  { destruct (variant_eqb v VNone) eqn:EV; cbn [negb].
    { destruct v; try discriminate EV. kernel (bc3_std_t_transform_ok c) fam_bc3_std a b N m. fin_t a N m. }
    { assert (VO : vok v = true) by (destruct v; [discriminate EV|reflexivity..]). kernel (bc3_rec_t_transform_with_decorrelate_ok c v) (fam_bc3_rec v) a b N m. fin_t a N m. } }
Qed.

Lemma untransform_bc3_ptr : exists y, untransform_bc3_with_settings c (Ptr BIn a) (Ptr BOut b) (16 * N) s m =
  Ok (Mem (m_in m) (m_aux m) (splice (m_out m) b y)) /\
  inverse_of 16 (bc3_fields (decorrelation_mode3 s) (split_alpha_endpoints s) (split_colour_endpoints3 s)) (slice (m_in m) a (16 * N)) y.
Proof.
  destruct s as [v sa sp]. cbn [decorrelation_mode3 split_alpha_endpoints split_colour_endpoints3] in *. unfold untransform_bc3_with_settings.
  cbn [decorrelation_mode3 split_alpha_endpoints split_colour_endpoints3]. replace (16 * N mod 16 =? 0) with true by lia.
  rewrite debug_assert_t. cbn [bind]. cbv zeta.
  destruct sa; destruct sp.
  { destruct (variant_eqb v VNone) eqn:EV; cbn [negb].
    { destruct v; try discriminate EV. kernel (bc3_sac_u_untransform_with_split_alphas_and_colour_ok c) fam_bc3_sac a b N m. fin_u a N m. }
    { assert (VO : vok v = true) by (destruct v; [discriminate EV|reflexivity..]). kernel (bc3_sacr_u_untransform_with_split_alphas_colour_and_recorr_ok c v) (fam_bc3_sacr v) a b N m. fin_u a N m. } }
  { destruct (variant_eqb v VNone) eqn:EV; cbn [negb].
    { destruct v; try discriminate EV. kernel (bc3_sa_u_untransform_with_split_alphas_ok c) fam_bc3_sa a b N m. fin_u a N m. }
    { assert (VO : vok v = true) by (destruct v; [discriminate EV|reflexivity..]). kernel (bc3_sar_u_untransform_with_split_alphas_and_recorr_ok c v) (fam_bc3_sar v) a b N m. fin_u a N m. } }
  { destruct (variant_eqb v VNone) eqn:EV; cbn [negb].
    { destruct v; try discriminate EV. kernel (bc3_sc_u_untransform_with_split_colour_ok c) fam_bc3_sc a b N m. fin_u a N m. }
    { assert (VO : vok v = true) by (destruct v; [discriminate EV|reflexivity..]). kernel (bc3_scr_u_untransform_with_split_colour_and_recorr_ok c v) (fam_bc3_scr v) a b N m. fin_u a N m. } }
  { destruct (variant_eqb v VNone) eqn:EV; cbn [negb].
    { destruct v; try discriminate EV. kernel (bc3_std_u_untransform_ok c) fam_bc3_std a b N m. fin_u a N m. }
    { assert (VO : vok v = true) by (destruct v; [discriminate EV|reflexivity..]). kernel (bc3_rec_u_untransform_with_recorrelate_ok c v) (fam_bc3_rec v) a b N m. fin_u a N m. } }
Qed.

End Bc3.

