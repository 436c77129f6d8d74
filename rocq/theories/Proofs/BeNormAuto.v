(** Proofs/NormAuto.v for a big-endian machine (generated by tools/gen_be_norm.py). *)
From Verif Require Import Base.Bytes Base.Res Model.Color565 Model.Ycc Model.Kernel Model.GenBeBc1Std Model.GenBeSplit565
  Model.ColorSlices Model.Transform Model.Auto Model.Decode Model.Normalize Model.NormTransform Model.BeTransform Model.BeFiles Model.BeNormTransform
  Spec.YCoCg Spec.Layout Spec.BigEndian Spec.Pixels Spec.Normalize Spec.Estimator Spec.NormTransform Spec.BeFiles
  Proofs.KernelCheck Proofs.KernelLoop Proofs.KernelFun Proofs.Shapes Proofs.LayoutFacts Proofs.ShapeLayout Proofs.KBc1ScrU Proofs.KBeBc1Std
  Proofs.Families Proofs.BeFamilies Proofs.TransformFacts Proofs.SliceFacts Proofs.BeTransformFacts Proofs.BeSliceFacts Proofs.BigEndianFacts Proofs.ColorSlicesFacts
  Proofs.AutoFacts Proofs.AutoProps Proofs.AutoTheorems Proofs.BeAutoProps
  Proofs.NormLoop Proofs.NormPixels Proofs.NormalizeFacts Proofs.NormSplit Proofs.NormDerived Proofs.NormTransformFacts Proofs.NormAuto Proofs.NormAutoTheorems Proofs.BeNormTransformFacts.
From Coq Require Import ZifyBool ZifyNat.

Section Tries.
Context {St Er : Type}.
Variables (c : cfg) (v : env) (e : estimator St Er) (use_all : bool) (fresh : Z -> byte).

(** The search without memory: candidates with the texture they are measured on. *)
Fixpoint be_tries (comp : Z) (l : list (details * list byte)) (b : details) (bs : Z) (st : St) : details * Z * St :=
  match l with
  | [] => (b, bs, st)
  | (d, y) :: l =>
      match estimate_compressed_size e st (be_colour_part (d_decorr d) (d_split d) y) comp with
      | (RErr _, st) => be_tries comp l b bs st
      | (ROk z, st) => if z <? bs then be_tries comp l d z st else be_tries comp l b bs st
      end
  end.
Lemma be_tries_app : forall comp l1 l2 b bs st, be_tries comp (l1 ++ l2) b bs st = let '(b, bs, st) := be_tries comp l1 b bs st in be_tries comp l2 b bs st.
Proof.
  intros comp l1. induction l1 as [|[d y] l1 IH]; intros l2 b bs st; [reflexivity|]. cbn [app be_tries].
  destruct (estimate_compressed_size _ _ _ _) as [[z|e1] st1]; [destruct (z <? bs)|]; apply IH.
Qed.
Lemma be_tries_in : forall comp l b bs st b' bs' st', be_tries comp l b bs st = (b', bs', st') -> b' = b \/ exists y, In (b', y) l.
Proof.
  intros comp l. induction l as [|[d y] l IH]; intros b bs st b' bs' st' H; cbn [be_tries] in H.
  - left. congruence.
  - destruct (estimate_compressed_size _ _ _ _) as [[z|e1] st1]; [destruct (z <? bs)|]; apply IH in H; destruct H as [->|[y' I]];
      try (left; reflexivity); right; first [exists y'; right; exact I|exists y; left; reflexivity].
Qed.

Lemma be_colour_part_len : forall v sp y n, zlen y = 8 * Z.of_nat n -> zlen (be_colour_part v sp y) = 4 * Z.of_nat n.
Proof.
  intros v0 sp y n Hy. unfold be_colour_part, zlen. rewrite (lay_length 8 _ (colour_widths sp)).
  - rewrite colour_sum. unfold blocks. rewrite chunks_length. unfold zlen in Hy. replace (List.length y) with (n * 8)%nat by lia. rewrite Nat.div_mul by lia. lia.
  - apply be_fwidth_colours.
  - apply blocks_all. lia.
Qed.

Lemma be_test_variant_ok : forall input out n comp d y s, cpu_ok c -> (d_split d = true -> (c_debug c = true -> 0 < Z.of_nat n)) -> zlen y = 8 * Z.of_nat n ->
  within (s_mem s) input (4 * Z.of_nat n) -> within (s_mem s) out (4 * Z.of_nat n) -> apartb input (4 * Z.of_nat n) out (4 * Z.of_nat n) = true ->
  slice (s_mem s) input (4 * Z.of_nat n) = sec 0 y ->
  exists m', only_changes [(out, 4 * Z.of_nat n)] (s_mem s) m' /\
    be_test_variant c e input out (8 * Z.of_nat n) comp d s = Ok (let '(b, bs, st) := be_tries comp [(d, y)] (best s) (best_size s) (s_est s) in Search b bs m' st).
Proof.
  intros input out n comp d y [b bs m st] K SL Hy WI WO A E. cbn [s_mem best best_size s_est] in *.
  destruct WI as [I1 [I2 I3]]. destruct WO as [O1 [O2 O3]]. unfold be_test_variant. cbn [s_mem best best_size s_est].
  replace (8 * Z.of_nat n / 2) with (4 * Z.of_nat n) by lia. replace (4 * Z.of_nat n / 2) with (2 * Z.of_nat n) by lia.
  set (P := be_colour_part (d_decorr d) (d_split d) y). assert (LP : zlen P = 4 * Z.of_nat n) by (apply be_colour_part_len; exact Hy).
  assert (ST : exists m', (if d_split d
         then do m <- be_split_at c input out (4 * Z.of_nat n) m ;; be_decorrelate_at true out (2 * Z.of_nat n) (d_decorr d) m
         else be_decorrelate_slice_at (c_debug c) input out (2 * Z.of_nat n) (d_decorr d) m) = Ok m' /\
       only_changes [(out, 4 * Z.of_nat n)] m m' /\ slice m' out (4 * Z.of_nat n) = P).
  { destruct d as [mode vv sp]. cbn [d_split d_decorr] in *. destruct sp.
    - specialize (SL eq_refl). rewrite be_split_at_ok; try assumption; try (unfold within; lia). cbn [bind]. rewrite E.
      set (S := lay [raw 0 2; raw 2 2] (blocks 4 (sec 0 y))).
      assert (LS : zlen S = 4 * Z.of_nat n).
      { unfold S, zlen. rewrite (lay_length 4 _ [2; 2]%nat).
        - unfold blocks. rewrite chunks_length. pose proof (sec_len 0 y n ltac:(lia) Hy) as Q. unfold zlen in Q.
          replace (List.length (sec 0 y)) with (n * 4)%nat by lia. rewrite Nat.div_mul by lia. cbn [sum fold_right]. lia.
        - repeat constructor; apply fwidth_raw; lia.
        - apply blocks_all. lia. }
      pose proof (be_decorrelate_at_ok (splice m out S) out (2 * n) vv) as D.
      replace (Z.of_nat (2 * n)) with (2 * Z.of_nat n) in D by lia. replace (2 * (2 * Z.of_nat n)) with (4 * Z.of_nat n) in D by lia.
      assert (Z1 : zlen (splice m out S) = zlen m) by (apply zlen_splice; lia).
      rewrite D by (unfold within; lia). clear D. rewrite (slice_splice_same' m out S) by lia. unfold S at 2. rewrite be_colour_part_split. fold P.
      exists (splice (splice m out S) out P). split; [reflexivity|]. split.
      + apply oc_trans with (m2 := splice m out S); (apply oc_splice with (q := out) (len := 4 * Z.of_nat n); try lia; left; reflexivity).
      + apply slice_splice_same'; lia.
    - pose proof (be_decorrelate_slice_at_ok (c_debug c) m input out (2 * n) vv) as D.
      replace (Z.of_nat (2 * n)) with (2 * Z.of_nat n) in D by lia. replace (2 * (2 * Z.of_nat n)) with (4 * Z.of_nat n) in D by lia.
      rewrite D by (unfold within; try assumption; lia). rewrite E, be_colour_part_plain. fold P.
      exists (splice m out P). split; [reflexivity|]. split.
      + apply oc_splice with (q := out) (len := 4 * Z.of_nat n); try lia. left. reflexivity.
      + apply slice_splice_same'; lia. }
  destruct ST as (m' & -> & OC & SP). cbn [bind]. exists m'. split; [exact OC|].
  pose proof (proj1 OC) as ZM. rewrite load_ok by lia. cbn [bind]. rewrite SP. cbn [be_tries]. fold P.
  destruct (estimate_compressed_size e st P comp) as [[z|e1] st1]; [destruct (z <? bs)|]; reflexivity.
Qed.

Lemma be_test_order_ok : forall input out n comp norm y order s, cpu_ok c -> (c_debug c = true -> 0 < Z.of_nat n) -> zlen y = 8 * Z.of_nat n ->
  within (s_mem s) input (4 * Z.of_nat n) -> within (s_mem s) out (4 * Z.of_nat n) -> apartb input (4 * Z.of_nat n) out (4 * Z.of_nat n) = true ->
  slice (s_mem s) input (4 * Z.of_nat n) = sec 0 y ->
  exists m', only_changes [(out, 4 * Z.of_nat n)] (s_mem s) m' /\
    be_test_order c e input out (8 * Z.of_nat n) comp norm order s =
    Ok (let '(b, bs, st) := be_tries comp (map (fun o => (Details norm (decorrelation_mode o) (split_colour_endpoints o), y)) order) (best s) (best_size s) (s_est s) in Search b bs m' st).
Proof.
  intros input out n comp norm y order. induction order as [|o order IH]; intros s K SL Hy WI WO A E.
  - exists (s_mem s). split; [apply oc_refl|]. destruct s; reflexivity.
  - set (d := Details norm (decorrelation_mode o) (split_colour_endpoints o)).
    destruct (be_test_variant_ok input out n comp d y s K (fun _ => SL) Hy WI WO A E) as (m1 & OC1 & E1).
    cbn [be_test_order map]. fold d. rewrite E1. cbn [bind].
    change ((d, y) :: map (fun o0 => (Details norm (decorrelation_mode o0) (split_colour_endpoints o0), y)) order) with
      ([(d, y)] ++ map (fun o0 => (Details norm (decorrelation_mode o0) (split_colour_endpoints o0), y)) order). rewrite be_tries_app.
    destruct (be_tries comp [(d, y)] (best s) (best_size s) (s_est s)) as [[b bs] st].
    pose proof (proj1 OC1) as ZM. unfold within in *. unfold apartb in A.
    destruct (IH (Search b bs m1 st) K SL Hy) as (m2 & OC2 & E2); cbn [s_mem]; rewrite ?ZM; try assumption.
    + rewrite <- E. apply (oc_slice _ _ _ _ _ OC1); try lia. intros q l [J|[]]. pose proof (f_equal fst J) as J1. pose proof (f_equal snd J) as J2. cbn [fst snd] in J1, J2. lia.
    + exists m2. cbn [s_mem best best_size s_est] in *. split; [apply oc_trans with (m2 := m1); assumption|exact E2].
Qed.

Lemma be_test_norms_ok : forall out n comp order norms inputs ys s, cpu_ok c -> (c_debug c = true -> 0 < Z.of_nat n) ->
  within (s_mem s) out (4 * Z.of_nat n) ->
  Forall2 (fun input y => zlen y = 8 * Z.of_nat n /\ within (s_mem s) input (4 * Z.of_nat n) /\ apartb input (4 * Z.of_nat n) out (4 * Z.of_nat n) = true /\
    slice (s_mem s) input (4 * Z.of_nat n) = sec 0 y) inputs ys ->
  exists m', only_changes [(out, 4 * Z.of_nat n)] (s_mem s) m' /\
    be_test_norms c e norms inputs out (8 * Z.of_nat n) comp order s =
    Ok (let '(b, bs, st) := be_tries comp (cands norms ys order) (best s) (best_size s) (s_est s) in Search b bs m' st).
Proof.
  intros out n comp order norms. induction norms as [|norm norms IH]; intros inputs ys s K SL WO F.
  - exists (s_mem s). split; [apply oc_refl|]. destruct s; reflexivity.
  - destruct F as [|input y inputs ys (Hy & WI & A & E) F].
    + exists (s_mem s). split; [apply oc_refl|]. destruct s; reflexivity.
    + destruct (be_test_order_ok input out n comp norm y order s K SL Hy WI WO A E) as (m1 & OC1 & E1).
      cbn [be_test_norms]. rewrite E1. cbn [bind]. unfold cands. cbn [combine flat_map fst snd]. fold (cands norms ys order). rewrite be_tries_app.
      destruct (be_tries comp (map _ order) (best s) (best_size s) (s_est s)) as [[b bs] st].
      pose proof (proj1 OC1) as ZM.
      destruct (IH inputs ys (Search b bs m1 st) K SL) as (m2 & OC2 & E2); cbn [s_mem].
      * unfold within in *. rewrite ZM. exact WO.
      * clear IH. induction F as [|i' y' inputs ys (Hy' & WI' & A' & E') F IHF]; constructor; [|exact IHF].
        unfold within in *. rewrite ZM. split; [exact Hy'|]. split; [exact WI'|]. split; [exact A'|]. rewrite <- E'. unfold apartb in A'.
        apply (oc_slice _ _ _ _ _ OC1); try lia. intros q l [J|[]]. pose proof (f_equal fst J) as J1. pose proof (f_equal snd J) as J2. cbn [fst snd] in J1, J2. lia.
      * exists m2. cbn [s_mem best best_size s_est] in *. split; [apply oc_trans with (m2 := m1); assumption|exact E2].
Qed.

Lemma be_decor_none : forall y n, zlen y = 8 * Z.of_nat n -> be_decor VNone (sec 0 y) = sec 0 y.
Proof.
  intros x n Hx. unfold be_decor. rewrite map_ident by reflexivity. pose proof (sec_len 0 x n ltac:(lia) Hx) as L.
  refine (even_ind (fun l => be_of_colours (be_to_colours l) = l) eq_refl _ (2 * n) (sec 0 x) _); [|lia].
  intros a b l IH. unfold be_of_colours in *. cbn [be_to_colours flat_map app]. change (256 * b2z a + b2z b) with (u16be a b). rewrite IH, hi8_u16be, lo8_u16be. reflexivity.
Qed.
Lemma be_layout_half : forall y n, zlen y = 8 * Z.of_nat n -> zlen (be_bc1_layout VNone false y) = 8 * Z.of_nat n /\
  slice (be_bc1_layout VNone false y) 0 (4 * Z.of_nat n) = sec 0 y.
Proof.
  intros y n Hy. rewrite be_layout_parts. rewrite <- be_colour_part_plain, (be_decor_none y n Hy).
  pose proof (sec_len 0 y n ltac:(lia) Hy) as L0. pose proof (sec_len 4 y n ltac:(lia) Hy) as L4.
  split; [rewrite zlen_app; lia|apply slice_app1; lia].
Qed.

(** Splitting one normalised buffer into colours and indices. *)
Lemma be_one_split : forall m src dst n y, cpu_ok c -> within m src (8 * Z.of_nat n) -> within m dst (8 * Z.of_nat n) ->
  apartb src (8 * Z.of_nat n) dst (8 * Z.of_nat n) = true -> slice m src (8 * Z.of_nat n) = y ->
  exists m', be_transform_at c src dst (8 * Z.of_nat n) m = Ok m' /\ only_changes [(dst, 8 * Z.of_nat n)] m m' /\ slice m' dst (4 * Z.of_nat n) = sec 0 y.
Proof.
  intros m src dst n y K WI WO A E. rewrite be_transform_at_ok; try assumption; [|lia]. destruct WI as [I1 [I2 I3]]. destruct WO as [O1 [O2 O3]].
  assert (Hy : zlen y = 8 * Z.of_nat n) by (rewrite <- E; apply zlen_slice; lia). rewrite E. destruct (be_layout_half y n Hy) as [LL LH].
  eexists. split; [reflexivity|]. split; [apply oc_splice with (q := dst) (len := 8 * Z.of_nat n); try lia; left; reflexivity|].
  rewrite <- LH. apply slice_ext; try (rewrite ?zlen_splice; lia). intros t Ht. rewrite znth_splice by lia.
  replace ((dst <=? dst + t) && (dst + t <? dst + zlen (be_bc1_layout VNone false y))) with true by lia. f_equal. lia.
Qed.

Lemma be_auto_some_exact : forall m0 inp out len st, cpu_ok c -> len mod 8 = 0 -> within m0 inp len -> within m0 out len -> apartb inp len out len = true ->
  normalisable (slice m0 inp len) -> (c_debug c = true -> 0 < len / 8) ->
  let run := be_transform_bc1_auto_with_normalization c v e use_all fresh true inp out len m0 st in
  exists y0 y1 y2, blockwise 8 (measured CNone) (slice m0 inp len) y0 /\ blockwise 8 (measured Color0Only) (slice m0 inp len) y1 /\
    blockwise 8 (measured ReplicateColor) (slice m0 inp len) y2 /\
  if negb (alloc_ok v len) then run = Ok (RErr AllocateError, m0, st) else
  match max_compressed_size e st (len / 2) with
  | (RErr e1, st1) => run = Ok (RErr (SizeEstimationError e1), m0, st1)
  | (ROk scratch, st1) =>
      if negb (scratch =? 0) && negb (alloc_ok v scratch) then run = Ok (RErr AllocateError, m0, st1)
      else if negb (alloc_ok v (len / 2)) then run = Ok (RErr AllocateError, m0, st1)
      else exists d bs st2 m', be_tries scratch (cands all_color_norms [y0; y1; y2] (order1 use_all)) default_details (usize_max v) st1 = (d, bs, st2) /\
        run = Ok (ROk d, m', st2) /\
        only_changes [(out, len)] m0 m' /\ slice m' out len = be_bc1_layout (d_decorr d) (d_split d) (normalised (d_norm d) (slice m0 inp len))
  end.
Proof.
  intros m0 inp out len st K M WI WO A NB SL run.
  destruct (all_modes_at c fresh m0 inp len WI M) as (any & m1 & y0 & y1 & y2 & E1 & KP1 & Z1 & B0 & B1 & B2 & S0 & S1 & S2 & AN).
  exists y0, y1, y2. split; [exact B0|]. split; [exact B1|]. split; [exact B2|].
  subst run. unfold be_transform_bc1_auto_with_normalization. destruct (alloc_ok v len) eqn:AL; cbn [negb].
  2:{ reflexivity. }
  destruct (max_compressed_size e st (len / 2)) as [[scratch|e1] st1].
  2:{ reflexivity. }
  destruct (negb (scratch =? 0) && negb (alloc_ok v scratch)) eqn:AC.
  { reflexivity. }
  cbv zeta in E1. rewrite E1. cbn [bind]. apply AN in NB. rewrite NB. cbn [negb].
  destruct WI as [I1 [I2 I3]]. destruct WO as [O1 [O2 O3]].
  assert (EN : exists n, len = 8 * Z.of_nat n) by (exists (Z.to_nat (len / 8)); lia). destruct EN as [n EN]. subst len.
  replace (8 * Z.of_nat n / 8) with (Z.of_nat n) in * by lia. replace (8 * Z.of_nat n / 2) with (4 * Z.of_nat n) in * by lia.
  pose proof (zlen_nonneg _ m0) as P0.
  set (m2 := grow fresh m1 (3 * (8 * Z.of_nat n))). assert (Z2 : zlen m2 = zlen m0 + 48 * Z.of_nat n) by (unfold m2; rewrite (grow_len fresh); lia).
  assert (KP2 : keeps m0 m2) by (apply (keeps_grow fresh); [lia|exact KP1]).
  assert (T0 : slice m2 (zlen m0) (8 * Z.of_nat n) = y0) by (unfold m2; rewrite (grow_slice fresh) by lia; exact S0).
  assert (T1 : slice m2 (zlen m0 + 8 * Z.of_nat n) (8 * Z.of_nat n) = y1) by (unfold m2; rewrite (grow_slice fresh) by lia; exact S1).
  assert (T2 : slice m2 (zlen m0 + 2 * (8 * Z.of_nat n)) (8 * Z.of_nat n) = y2) by (unfold m2; rewrite (grow_slice fresh) by lia; exact S2).
  clearbody m2. unfold three. rewrite Z1. cbn [for_dsts].
  destruct (be_one_split m2 (zlen m0) (zlen m0 + 3 * (8 * Z.of_nat n)) n y0) as (m3 & E3 & OC3 & U0); try (unfold within; lia); try (unfold apartb; lia); try assumption.
  rewrite E3. cbn [bind]. pose proof (proj1 OC3) as Z3.
  destruct (be_one_split m3 (zlen m0 + 8 * Z.of_nat n) (zlen m0 + 3 * (8 * Z.of_nat n) + 8 * Z.of_nat n) n y1) as (m4 & E4 & OC4 & U1); try (unfold within; lia); try (unfold apartb; lia); try assumption.
  { rewrite <- T1. apply (oc_slice _ _ _ _ _ OC3); try lia. intros q l I. apply oc1 in I. lia. }
  rewrite E4. cbn [bind]. pose proof (proj1 OC4) as Z4.
  destruct (be_one_split m4 (zlen m0 + 2 * (8 * Z.of_nat n)) (zlen m0 + 3 * (8 * Z.of_nat n) + 2 * (8 * Z.of_nat n)) n y2) as (m5 & E5 & OC5 & U2); try (unfold within; lia); try (unfold apartb; lia); try assumption.
  { rewrite <- T2. transitivity (slice m3 (zlen m0 + 2 * (8 * Z.of_nat n)) (8 * Z.of_nat n)).
    - apply (oc_slice _ _ _ _ _ OC4); try lia. intros q l I. apply oc1 in I. lia.
    - apply (oc_slice _ _ _ _ _ OC3); try lia. intros q l I. apply oc1 in I. lia. }
  rewrite E5. cbn [bind]. pose proof (proj1 OC5) as Z5.
  assert (V0 : slice m5 (zlen m0 + 3 * (8 * Z.of_nat n)) (4 * Z.of_nat n) = sec 0 y0).
  { rewrite <- U0. transitivity (slice m4 (zlen m0 + 3 * (8 * Z.of_nat n)) (4 * Z.of_nat n)).
    - apply (oc_slice _ _ _ _ _ OC5); try lia. intros q l I. apply oc1 in I. lia.
    - apply (oc_slice _ _ _ _ _ OC4); try lia. intros q l I. apply oc1 in I. lia. }
  assert (V1 : slice m5 (zlen m0 + 3 * (8 * Z.of_nat n) + 8 * Z.of_nat n) (4 * Z.of_nat n) = sec 0 y1).
  { rewrite <- U1. apply (oc_slice _ _ _ _ _ OC5); try lia. intros q l I. apply oc1 in I. lia. }
  assert (KP5 : keeps m0 m5).
  { apply (keeps_oc m0 m4 m5 _ OC5); [|intros p l I; apply oc1 in I; lia]. apply (keeps_oc m0 m3 m4 _ OC4); [|intros p l I; apply oc1 in I; lia].
    apply (keeps_oc m0 m2 m3 _ OC3); [exact KP2|intros p l I; apply oc1 in I; lia]. }
  clear E3 E4 E5 OC3 OC4 OC5 U0 U1 T0 T1 T2 S0 S1 S2.
  destruct (alloc_ok v (4 * Z.of_nat n)) eqn:AW; cbn [negb].
  2:{ reflexivity. }
  set (m6 := grow fresh m5 (4 * Z.of_nat n)). assert (Z6 : zlen m6 = zlen m5 + 4 * Z.of_nat n) by (apply (grow_len fresh); lia).
  assert (KP6 : keeps m0 m6) by (apply (keeps_grow fresh); [lia|exact KP5]).
  rewrite <- (grow_slice fresh m5 (4 * Z.of_nat n)) in V0, V1, U2 by lia. fold m6 in V0, V1, U2. clearbody m6.
  assert (ZX : zlen (slice m0 inp (8 * Z.of_nat n)) = 8 * Z.of_nat n) by (apply zlen_slice; lia).
  assert (Y0 : zlen y0 = 8 * Z.of_nat n) by (rewrite (proj1 B0); exact ZX).
  assert (Y1 : zlen y1 = 8 * Z.of_nat n) by (rewrite (proj1 B1); exact ZX).
  assert (Y2 : zlen y2 = 8 * Z.of_nat n) by (rewrite (proj1 B2); exact ZX).
  fold (order1 use_all).
  destruct (be_test_norms_ok (zlen m5) n scratch (order1 use_all) all_color_norms
    [zlen m0 + 3 * (8 * Z.of_nat n); zlen m0 + 3 * (8 * Z.of_nat n) + 8 * Z.of_nat n; zlen m0 + 3 * (8 * Z.of_nat n) + 2 * (8 * Z.of_nat n)] [y0; y1; y2]
    (Search default_details (usize_max v) m6 st1)) as (m7 & OC7 & E7); cbn [s_mem] in *; try assumption.
  { unfold within. lia. }
  { constructor; [|constructor; [|constructor; [|constructor]]].
    - split; [exact Y0|]. split; [unfold within; lia|]. split; [unfold apartb; lia|exact V0].
    - split; [exact Y1|]. split; [unfold within; lia|]. split; [unfold apartb; lia|exact V1].
    - split; [exact Y2|]. split; [unfold within; lia|]. split; [unfold apartb; lia|exact U2]. }
  rewrite E7. cbn [bind s_mem best best_size s_est]. clear E7.
  destruct (be_tries scratch (cands all_color_norms [y0; y1; y2] (order1 use_all)) default_details (usize_max v) st1) as [[d bs] st2] eqn:TR.
  cbn [s_mem best best_size s_est]. pose proof (proj1 OC7) as Z7.
  assert (KP7 : keeps m0 m7) by (apply (keeps_oc m0 m6 m7 _ OC7); [exact KP6|intros p l I; apply oc1 in I; lia]).
  unfold apartb in A.
  destruct (be_with_normalize_ok c m7 inp out (zlen m5) (8 * Z.of_nat n) d) as (m8 & E8 & OC8 & S8); try assumption;
    replace (8 * Z.of_nat n / 2) with (4 * Z.of_nat n) in * by lia; replace (8 * Z.of_nat n / 8) with (Z.of_nat n) in * by lia;
    try (unfold within; lia); try (unfold apartb; lia).
  rewrite E8. cbn [bind].
  destruct (keeps_first m0 m7 m8 out (8 * Z.of_nat n) (zlen m5) (4 * Z.of_nat n) KP7 OC8) as [F1 F2]; try lia.
  exists d, bs, st2, (firstn (List.length m0) m8). split; [reflexivity|]. split; [reflexivity|]. split; [exact F1|].
  rewrite F2, S8. rewrite (keeps_slice m0 m7) by (assumption || lia). reflexivity.
Qed.
Lemma be_auto_some : forall m0 inp out len st, cpu_ok c -> len mod 8 = 0 -> within m0 inp len -> within m0 out len -> apartb inp len out len = true ->
  normalisable (slice m0 inp len) -> (c_debug c = true -> 0 < len / 8) ->
  exists y0 y1 y2, blockwise 8 (measured CNone) (slice m0 inp len) y0 /\ blockwise 8 (measured Color0Only) (slice m0 inp len) y1 /\
    blockwise 8 (measured ReplicateColor) (slice m0 inp len) y2 /\
  ((exists st1 n, be_transform_bc1_auto_with_normalization c v e use_all fresh true inp out len m0 st = Ok (RErr AllocateError, m0, st1) /\ alloc_ok v n = false) \/
   (exists e1 st1, max_compressed_size e st (len / 2) = (RErr e1, st1) /\
      be_transform_bc1_auto_with_normalization c v e use_all fresh true inp out len m0 st = Ok (RErr (SizeEstimationError e1), m0, st1)) \/
   (exists scratch st1 d bs st2 m', max_compressed_size e st (len / 2) = (ROk scratch, st1) /\
      be_tries scratch (cands all_color_norms [y0; y1; y2] (order1 use_all)) default_details (usize_max v) st1 = (d, bs, st2) /\
      be_transform_bc1_auto_with_normalization c v e use_all fresh true inp out len m0 st = Ok (ROk d, m', st2) /\
      only_changes [(out, len)] m0 m' /\ slice m' out len = be_bc1_layout (d_decorr d) (d_split d) (normalised (d_norm d) (slice m0 inp len)))).
Proof.
  intros m0 inp out len st K M WI WO A NB SL. destruct (be_auto_some_exact m0 inp out len st K M WI WO A NB SL) as (y0 & y1 & y2 & B0 & B1 & B2 & R).
  exists y0, y1, y2. split; [exact B0|]. split; [exact B1|]. split; [exact B2|].
  destruct (alloc_ok v len) eqn:AL; cbn [negb] in R; [|left; exists st, len; split; assumption].
  destruct (max_compressed_size e st (len / 2)) as [[scratch|e1] st1]; [|right; left; exists e1, st1; split; [reflexivity|exact R]].
  destruct (negb (scratch =? 0) && negb (alloc_ok v scratch)) eqn:AC.
  { left. exists st1, scratch. split; [exact R|]. destruct (alloc_ok v scratch); [destruct (scratch =? 0); discriminate AC|reflexivity]. }
  destruct (alloc_ok v (len / 2)) eqn:AW; cbn [negb] in R; [|left; exists st1, (len / 2); split; assumption].
  destruct R as (d & bs & st2 & m' & TR & R & OC & S). right. right. exists scratch, st1, d, bs, st2, m'. split; [reflexivity|]. auto.
Qed.
End Tries.
