(** The automatic search on a big-endian machine (generated by tools/gen_be.py
    from Proofs/AutoProps.v). *)
From Verif Require Import Base.Bytes Base.Res Model.Color565 Model.Ycc Model.Kernel Model.Transform Model.Auto Model.BeTransform Model.BeFiles
  Spec.YCoCg Spec.Layout Spec.BigEndian Spec.Estimator Proofs.LayoutFacts Proofs.Families Proofs.BeFamilies Proofs.TransformFacts Proofs.SliceFacts
  Proofs.BeSliceFacts Spec.BeFiles Proofs.AutoFacts Proofs.AutoProps Proofs.AutoTheorems.
From Coq Require Import ZifyBool ZifyNat.

Lemma be_fwidth_colours : forall k v sp off, Forall2 (fwidth k) (be_colour_fields v sp off) (colour_widths sp).
Proof. intros k v [] off; repeat constructor; intros b _; reflexivity. Qed.

Lemma be_bc1_AUTO : forall {St Er} c v (e : estimator St Er) all x out, cpu_ok c -> 
  zlen x mod 8 = 0 -> zlen x <= zlen out ->
  AUTO (out := out) v e (be_bc1_shown x) (fun s => be_bc1_layout (decorrelation_mode s) (split_colour_endpoints s) x ++ skipn (List.length x) out)
    (order1 all) default_settings (zlen x / 2) (be_transform_bc1_auto c v e all x out).
Proof.
  intros St Er c v e all x out K Hm Ho. unfold be_transform_bc1_auto.
  assert (LL : forall s, zlen (be_bc1_layout (decorrelation_mode s) (split_colour_endpoints s) x) = zlen x).
  { intros s. destruct (be_bc1_fam (decorrelation_mode s) (split_colour_endpoints s)) as (sht & shu & FM).
    apply (lay_zlen _ _ _ _ _ _ x FM); [lia|exact Hm]. }
  pose proof (zlen_nonneg _ x) as Hx.
  apply (auto_run v e (be_bc1_shown x) (fun s => be_bc1_layout (decorrelation_mode s) (split_colour_endpoints s) x) 8 (zlen x / 2) x out);
    [ | exact LL | exact Hm | exact Ho | | apply settings_eqb_spec | destruct all; discriminate].
  - intros s o Hz. rewrite be_bc1_call; [rewrite slice_all; reflexivity|exact K|exact Hm|lia..].
  - intros n s st. cbn beta. rewrite estimate_out by (rewrite ?LL; lia). unfold be_bc1_shown. rewrite one_est.
    do 2 f_equal. unfold be_bc1_layout, be_bc1_fields.
    rewrite <- (lay_slice 8 [] (be_colour_fields (decorrelation_mode s) (split_colour_endpoints s) 0) [raw 4 4] [] (colour_widths (split_colour_endpoints s)));
      [|constructor|apply be_fwidth_colours|apply blocks_all; lia].
    rewrite colour_sum, blocks_count. cbn [app sum fold_right]. f_equal; unfold zlen in *; lia.
Qed.

Lemma be_bc2_AUTO : forall {St Er} c v (e : estimator St Er) all x out, cpu_ok c -> 
  zlen x mod 16 = 0 -> zlen x <= zlen out ->
  AUTO (out := out) v e (be_bc2_shown x) (fun s => be_bc2_layout (decorrelation_mode s) (split_colour_endpoints s) x ++ skipn (List.length x) out)
    (order1 all) default_settings (zlen x / 4) (be_transform_bc2_auto c v e all x out).
Proof.
  intros St Er c v e all x out K Hm Ho. unfold be_transform_bc2_auto.
  assert (LL : forall s, zlen (be_bc2_layout (decorrelation_mode s) (split_colour_endpoints s) x) = zlen x).
  { intros s. destruct (be_bc2_fam (decorrelation_mode s) (split_colour_endpoints s)) as (sht & shu & FM).
    apply (lay_zlen _ _ _ _ _ _ x FM); [lia|exact Hm]. }
  pose proof (zlen_nonneg _ x) as Hx.
  apply (auto_run v e (be_bc2_shown x) (fun s => be_bc2_layout (decorrelation_mode s) (split_colour_endpoints s) x) 16 (zlen x / 4) x out);
    [ | exact LL | exact Hm | exact Ho | | apply settings_eqb_spec | destruct all; discriminate].
  - intros s o Hz. rewrite be_bc2_call; [rewrite slice_all; reflexivity|exact K|exact Hm|lia..].
  - intros n s st. cbn beta. rewrite ptr_add_in by (cbn [p_buf p_off buf_of m_out]; rewrite zlen_splice by (rewrite ?LL; lia); lia).
    cbn [bind]. unfold padd. cbn [p_buf p_off].
    rewrite estimate_out by (rewrite ?LL; lia). unfold be_bc2_shown. rewrite one_est.
    do 2 f_equal. unfold be_bc2_layout, be_bc2_fields.
    rewrite <- (lay_slice 16 [raw 0 8] (be_colour_fields (decorrelation_mode s) (split_colour_endpoints s) 8) [raw 12 4] [8%nat] (colour_widths (split_colour_endpoints s)));
      [|repeat constructor; apply fwidth_raw; lia|apply be_fwidth_colours|apply blocks_all; lia].
    rewrite colour_sum, blocks_count. cbn [app sum fold_right]. f_equal; unfold zlen in *; lia.
Qed.

Lemma be_bc3_AUTO : forall {St Er} c v (e : estimator St Er) all x out, cpu_ok c -> 
  (forall st d n z st', estimate_compressed_size e st d n = (ROk z, st') -> 2 * z <= usize_max v) ->
  zlen x mod 16 = 0 -> zlen x <= zlen out ->
  AUTO (out := out) v e (be_bc3_shown x) (fun s => be_bc3_layout (decorrelation_mode3 s) (split_alpha_endpoints s) (split_colour_endpoints3 s) x ++ skipn (List.length x) out)
    (order3 all) default_settings3 (zlen x / 4) (be_transform_bc3_auto c v e all x out).
Proof.
  intros St Er c v e all x out K HS Hm Ho. unfold be_transform_bc3_auto.
  assert (LL : forall s, zlen (be_bc3_layout (decorrelation_mode3 s) (split_alpha_endpoints s) (split_colour_endpoints3 s) x) = zlen x).
  { intros s. destruct (be_bc3_fam (decorrelation_mode3 s) (split_alpha_endpoints s) (split_colour_endpoints3 s)) as (sht & shu & FM).
    apply (lay_zlen _ _ _ _ _ _ x FM); [lia|exact Hm]. }
  pose proof (zlen_nonneg _ x) as Hx.
  apply (auto_run v e (be_bc3_shown x) (fun s => be_bc3_layout (decorrelation_mode3 s) (split_alpha_endpoints s) (split_colour_endpoints3 s) x) 16 (zlen x / 4) x out);
    [ | exact LL | exact Hm | exact Ho | | apply settings3_eqb_spec | destruct all; discriminate].
  - intros s o Hz. rewrite be_bc3_call; [rewrite slice_all; reflexivity|exact K|exact Hm|lia..].
  - intros n s st. cbn beta. unfold estimate_bc3. rewrite estimate_out by (rewrite ?LL; lia). cbn [bind].
    set (bl := be_bc3_layout _ _ _ x).
    assert (SA : slice bl 0 (zlen x / 16 * 2) = lay (if split_alpha_endpoints s then [raw 0 1; raw 1 1] else [raw 0 2]) (blocks 16 x)).
    { unfold bl, be_bc3_layout, be_bc3_fields.
      rewrite <- (lay_slice 16 [] (if split_alpha_endpoints s then [raw 0 1; raw 1 1] else [raw 0 2])
        ([raw 2 6] ++ be_colour_fields (decorrelation_mode3 s) (split_colour_endpoints3 s) 8 ++ [raw 12 4]) []
        (if split_alpha_endpoints s then [1; 1]%nat else [2]%nat)); [|constructor|apply fwidth_alphas|apply blocks_all; lia].
      rewrite blocks_count. replace (sum (if split_alpha_endpoints s then [1; 1]%nat else [2]%nat)) with 2%nat by (destruct (split_alpha_endpoints s); reflexivity).
      cbn [app sum fold_right]. f_equal; unfold zlen in *; lia. }
    assert (SC : slice bl (zlen x / 2) (zlen x / 16 * 4) = lay (be_colour_fields (decorrelation_mode3 s) (split_colour_endpoints3 s) 8) (blocks 16 x)).
    { unfold bl, be_bc3_layout, be_bc3_fields.
      rewrite <- (lay_slice 16 ((if split_alpha_endpoints s then [raw 0 1; raw 1 1] else [raw 0 2]) ++ [raw 2 6])
        (be_colour_fields (decorrelation_mode3 s) (split_colour_endpoints3 s) 8) [raw 12 4]
        ((if split_alpha_endpoints s then [1; 1]%nat else [2]%nat) ++ [6%nat]) (colour_widths (split_colour_endpoints3 s)));
      [|apply Forall2_app; [apply fwidth_alphas|repeat constructor; apply fwidth_raw; lia]|apply be_fwidth_colours|apply blocks_all; lia].
      rewrite colour_sum, blocks_count, <- app_assoc.
      replace (sum ((if split_alpha_endpoints s then [1; 1]%nat else [2]%nat) ++ [6%nat])) with 8%nat by (destruct (split_alpha_endpoints s); reflexivity).
      f_equal; unfold zlen in *; lia. }
    rewrite SA. cbn [be_bc3_shown est_all].
    destruct (estimate_compressed_size e st _ n) as [[za|e1] st1] eqn:E1; [|reflexivity].
    rewrite ptr_add_in by (cbn [p_buf p_off buf_of m_out]; unfold bl; rewrite zlen_splice by (rewrite ?LL; lia); lia).
    cbn [bind]. unfold padd. cbn [p_buf p_off]. unfold bl. rewrite estimate_out by (rewrite ?LL; lia). cbn [bind].
    fold bl. rewrite Z.add_0_l, SC.
    destruct (estimate_compressed_size e st1 _ n) as [[zc|e1] st2] eqn:E2; [|reflexivity].
    pose proof (HS _ _ _ _ _ E1). pose proof (HS _ _ _ _ _ E2).
    replace (za + zc <=? usize_max v) with true by lia. rewrite Z.add_0_l. reflexivity.
Qed.
Lemma be_bc1_log_same : forall {St Er} c v (e : estimator St Er) all x out st lg,
  forget (be_transform_bc1_auto c v (logging e) all x out (st, lg)) = be_transform_bc1_auto c v e all x out st.
Proof. intros. apply checked_forget. intros. apply search_forget. intros. apply at_forget. Qed.
Lemma be_bc2_log_same : forall {St Er} c v (e : estimator St Er) all x out st lg,
  forget (be_transform_bc2_auto c v (logging e) all x out (st, lg)) = be_transform_bc2_auto c v e all x out st.
Proof.
  intros. apply checked_forget. intros. apply search_forget. intros. cbn beta.
  destruct (ptr_add _ _ _); [|reflexivity..]. apply at_forget.
Qed.
Lemma be_bc3_log_same : forall {St Er} c v (e : estimator St Er) all x out st lg,
  forget (be_transform_bc3_auto c v (logging e) all x out (st, lg)) = be_transform_bc3_auto c v e all x out st.
Proof.
  intros. apply checked_forget. intros. apply search_forget. intros. unfold estimate_bc3.
  rewrite <- (at_forget e b (l / 16 * 2) k m0 st1 lg1). destruct (estimate_at (logging e) b _ _ _ _) as [[[z|e1] [st2 lg2]]|w|w]; cbn [bind forget]; try reflexivity.
  destruct (ptr_add _ _ _) as [p|w|w]; cbn [bind forget]; try reflexivity.
  rewrite <- (at_forget e p (l / 16 * 4) k m0 st2 lg2). destruct (estimate_at (logging e) p _ _ _ _) as [[[z'|e1] [st3 lg3]]|w|w]; cbn [bind forget]; try reflexivity.
  destruct (_ <=? _); [reflexivity|]. destruct (c_debug c); reflexivity.
Qed.

