(** The search over normalisation modes and settings. *)
From Verif Require Import Base.Bytes Base.Res Model.Color565 Model.Ycc Model.Kernel Model.GenBc1Std Model.GenSplit565
  Model.ColorSlices Model.Transform Model.Auto Model.Decode Model.Normalize Model.NormTransform
  Spec.YCoCg Spec.Layout Spec.Pixels Spec.Normalize Spec.Estimator Spec.NormTransform
  Proofs.KSplit565 Proofs.KernelCheck Proofs.KernelLoop Proofs.KernelFun Proofs.LayoutFacts Proofs.Shapes Proofs.ShapeLayout Proofs.Families Proofs.TransformFacts Proofs.SliceFacts Proofs.Split565Facts Proofs.AutoFacts Proofs.AutoProps
  Proofs.ColorSlicesFacts Proofs.NormLoop Proofs.NormPixels Proofs.NormalizeFacts Proofs.NormSplit Proofs.NormDerived Proofs.NormTransformFacts.
From Coq Require Import ZifyBool ZifyNat.

Section Tries.
Context {St Er : Type}.
Variables (c : cfg) (v : env) (e : estimator St Er) (use_all : bool) (fresh : Z -> byte).

(** The search without memory: candidates with the texture they are measured on. *)
Fixpoint tries (comp : Z) (l : list (details * list byte)) (b : details) (bs : Z) (st : St) : details * Z * St :=
  match l with
  | [] => (b, bs, st)
  | (d, y) :: l =>
      match estimate_compressed_size e st (colour_part (d_decorr d) (d_split d) y) comp with
      | (RErr _, st) => tries comp l b bs st
      | (ROk z, st) => if z <? bs then tries comp l d z st else tries comp l b bs st
      end
  end.
Lemma tries_app : forall comp l1 l2 b bs st, tries comp (l1 ++ l2) b bs st = let '(b, bs, st) := tries comp l1 b bs st in tries comp l2 b bs st.
Proof.
  intros comp l1. induction l1 as [|[d y] l1 IH]; intros l2 b bs st; [reflexivity|]. cbn [app tries].
  destruct (estimate_compressed_size _ _ _ _) as [[z|e1] st1]; [destruct (z <? bs)|]; apply IH.
Qed.
Lemma tries_in : forall comp l b bs st b' bs' st', tries comp l b bs st = (b', bs', st') -> b' = b \/ exists y, In (b', y) l.
Proof.
  intros comp l. induction l as [|[d y] l IH]; intros b bs st b' bs' st' H; cbn [tries] in H.
  - left. congruence.
  - destruct (estimate_compressed_size _ _ _ _) as [[z|e1] st1]; [destruct (z <? bs)|]; apply IH in H; destruct H as [->|[y' I]];
      try (left; reflexivity); right; first [exists y'; right; exact I|exists y; left; reflexivity].
Qed.

Lemma colour_part_len : forall v sp y n, zlen y = 8 * Z.of_nat n -> zlen (colour_part v sp y) = 4 * Z.of_nat n.
Proof.
  intros v0 sp y n Hy. unfold colour_part, zlen. rewrite (lay_length 8 _ (colour_widths sp)).
  - rewrite colour_sum. unfold blocks. rewrite chunks_length. unfold zlen in Hy. replace (List.length y) with (n * 8)%nat by lia. rewrite Nat.div_mul by lia. lia.
  - apply fwidth_colours.
  - apply blocks_all. lia.
Qed.

Lemma test_variant_ok : forall input out n comp d y s, cpu_ok c -> (d_split d = true -> split_len_ok c (Z.of_nat n)) -> zlen y = 8 * Z.of_nat n ->
  within (s_mem s) input (4 * Z.of_nat n) -> within (s_mem s) out (4 * Z.of_nat n) -> apartb input (4 * Z.of_nat n) out (4 * Z.of_nat n) = true ->
  slice (s_mem s) input (4 * Z.of_nat n) = sec 0 y ->
  exists m', only_changes [(out, 4 * Z.of_nat n)] (s_mem s) m' /\
    test_variant c e input out (8 * Z.of_nat n) comp d s = Ok (let '(b, bs, st) := tries comp [(d, y)] (best s) (best_size s) (s_est s) in Search b bs m' st).
Proof.
  intros input out n comp d y [b bs m st] K SL Hy WI WO A E. cbn [s_mem best best_size s_est] in *.
  destruct WI as [I1 [I2 I3]]. destruct WO as [O1 [O2 O3]]. unfold test_variant. cbn [s_mem best best_size s_est].
  replace (8 * Z.of_nat n / 2) with (4 * Z.of_nat n) by lia. replace (4 * Z.of_nat n / 2) with (2 * Z.of_nat n) by lia.
  set (P := colour_part (d_decorr d) (d_split d) y). assert (LP : zlen P = 4 * Z.of_nat n) by (apply colour_part_len; exact Hy).
  assert (ST : exists m', (if d_split d
         then do m <- split_at c input out (4 * Z.of_nat n) m ;; decorrelate_at true out (2 * Z.of_nat n) (d_decorr d) m
         else decorrelate_slice_at (c_debug c) input out (2 * Z.of_nat n) (d_decorr d) m) = Ok m' /\
       only_changes [(out, 4 * Z.of_nat n)] m m' /\ slice m' out (4 * Z.of_nat n) = P).
  { destruct d as [mode vv sp]. cbn [d_split d_decorr] in *. destruct sp.
    - specialize (SL eq_refl). rewrite split_at_ok; try assumption; try (unfold within; lia). cbn [bind]. rewrite E.
      set (S := lay [raw 0 2; raw 2 2] (blocks 4 (sec 0 y))).
      assert (LS : zlen S = 4 * Z.of_nat n).
      { unfold S, zlen. rewrite (lay_length 4 _ [2; 2]%nat).
        - unfold blocks. rewrite chunks_length. pose proof (sec_len 0 y n ltac:(lia) Hy) as Q. unfold zlen in Q.
          replace (List.length (sec 0 y)) with (n * 4)%nat by lia. rewrite Nat.div_mul by lia. cbn [sum fold_right]. lia.
        - repeat constructor; apply fwidth_raw; lia.
        - apply blocks_all. lia. }
      pose proof (decorrelate_at_ok (splice m out S) out (2 * n) vv) as D.
      replace (Z.of_nat (2 * n)) with (2 * Z.of_nat n) in D by lia. replace (2 * (2 * Z.of_nat n)) with (4 * Z.of_nat n) in D by lia.
      assert (Z1 : zlen (splice m out S) = zlen m) by (apply zlen_splice; lia).
      rewrite D by (unfold within; lia). clear D. rewrite (slice_splice_same' m out S) by lia. unfold S at 2. rewrite colour_part_split. fold P.
      exists (splice (splice m out S) out P). split; [reflexivity|]. split.
      + apply oc_trans with (m2 := splice m out S); (apply oc_splice with (q := out) (len := 4 * Z.of_nat n); try lia; left; reflexivity).
      + apply slice_splice_same'; lia.
    - pose proof (decorrelate_slice_at_ok (c_debug c) m input out (2 * n) vv) as D.
      replace (Z.of_nat (2 * n)) with (2 * Z.of_nat n) in D by lia. replace (2 * (2 * Z.of_nat n)) with (4 * Z.of_nat n) in D by lia.
      rewrite D by (unfold within; try assumption; lia). rewrite E, colour_part_plain. fold P.
      exists (splice m out P). split; [reflexivity|]. split.
      + apply oc_splice with (q := out) (len := 4 * Z.of_nat n); try lia. left. reflexivity.
      + apply slice_splice_same'; lia. }
  destruct ST as (m' & -> & OC & SP). cbn [bind]. exists m'. split; [exact OC|].
  pose proof (proj1 OC) as ZM. rewrite load_ok by lia. cbn [bind]. rewrite SP. cbn [tries]. fold P.
  destruct (estimate_compressed_size e st P comp) as [[z|e1] st1]; [destruct (z <? bs)|]; reflexivity.
Qed.

Lemma test_order_ok : forall input out n comp norm y order s, cpu_ok c -> split_len_ok c (Z.of_nat n) -> zlen y = 8 * Z.of_nat n ->
  within (s_mem s) input (4 * Z.of_nat n) -> within (s_mem s) out (4 * Z.of_nat n) -> apartb input (4 * Z.of_nat n) out (4 * Z.of_nat n) = true ->
  slice (s_mem s) input (4 * Z.of_nat n) = sec 0 y ->
  exists m', only_changes [(out, 4 * Z.of_nat n)] (s_mem s) m' /\
    test_order c e input out (8 * Z.of_nat n) comp norm order s =
    Ok (let '(b, bs, st) := tries comp (map (fun o => (Details norm (decorrelation_mode o) (split_colour_endpoints o), y)) order) (best s) (best_size s) (s_est s) in Search b bs m' st).
Proof.
  intros input out n comp norm y order. induction order as [|o order IH]; intros s K SL Hy WI WO A E.
  - exists (s_mem s). split; [apply oc_refl|]. destruct s; reflexivity.
  - set (d := Details norm (decorrelation_mode o) (split_colour_endpoints o)).
    destruct (test_variant_ok input out n comp d y s K (fun _ => SL) Hy WI WO A E) as (m1 & OC1 & E1).
    cbn [test_order map]. fold d. rewrite E1. cbn [bind].
    change ((d, y) :: map (fun o0 => (Details norm (decorrelation_mode o0) (split_colour_endpoints o0), y)) order) with
      ([(d, y)] ++ map (fun o0 => (Details norm (decorrelation_mode o0) (split_colour_endpoints o0), y)) order). rewrite tries_app.
    destruct (tries comp [(d, y)] (best s) (best_size s) (s_est s)) as [[b bs] st].
    pose proof (proj1 OC1) as ZM. unfold within in *. unfold apartb in A.
    destruct (IH (Search b bs m1 st) K SL Hy) as (m2 & OC2 & E2); cbn [s_mem]; rewrite ?ZM; try assumption.
    + rewrite <- E. apply (oc_slice _ _ _ _ _ OC1); try lia. intros q l [J|[]]. pose proof (f_equal fst J) as J1. pose proof (f_equal snd J) as J2. cbn [fst snd] in J1, J2. lia.
    + exists m2. cbn [s_mem best best_size s_est] in *. split; [apply oc_trans with (m2 := m1); assumption|exact E2].
Qed.

Definition cands (norms : list color_norm) (ys : list (list byte)) (order : list settings) : list (details * list byte) :=
  flat_map (fun p => map (fun o => (Details (fst p) (decorrelation_mode o) (split_colour_endpoints o), snd p)) order) (combine norms ys).
Lemma test_norms_ok : forall out n comp order norms inputs ys s, cpu_ok c -> split_len_ok c (Z.of_nat n) ->
  within (s_mem s) out (4 * Z.of_nat n) ->
  Forall2 (fun input y => zlen y = 8 * Z.of_nat n /\ within (s_mem s) input (4 * Z.of_nat n) /\ apartb input (4 * Z.of_nat n) out (4 * Z.of_nat n) = true /\
    slice (s_mem s) input (4 * Z.of_nat n) = sec 0 y) inputs ys ->
  exists m', only_changes [(out, 4 * Z.of_nat n)] (s_mem s) m' /\
    test_norms c e norms inputs out (8 * Z.of_nat n) comp order s =
    Ok (let '(b, bs, st) := tries comp (cands norms ys order) (best s) (best_size s) (s_est s) in Search b bs m' st).
Proof.
  intros out n comp order norms. induction norms as [|norm norms IH]; intros inputs ys s K SL WO F.
  - exists (s_mem s). split; [apply oc_refl|]. destruct s; reflexivity.
  - destruct F as [|input y inputs ys (Hy & WI & A & E) F].
    + exists (s_mem s). split; [apply oc_refl|]. destruct s; reflexivity.
    + destruct (test_order_ok input out n comp norm y order s K SL Hy WI WO A E) as (m1 & OC1 & E1).
      cbn [test_norms]. rewrite E1. cbn [bind]. unfold cands. cbn [combine flat_map fst snd]. fold (cands norms ys order). rewrite tries_app.
      destruct (tries comp (map _ order) (best s) (best_size s) (s_est s)) as [[b bs] st].
      pose proof (proj1 OC1) as ZM.
      destruct (IH inputs ys (Search b bs m1 st) K SL) as (m2 & OC2 & E2); cbn [s_mem].
      * unfold within in *. rewrite ZM. exact WO.
      * clear IH. induction F as [|i' y' inputs ys (Hy' & WI' & A' & E') F IHF]; constructor; [|exact IHF].
        unfold within in *. rewrite ZM. split; [exact Hy'|]. split; [exact WI'|]. split; [exact A'|]. rewrite <- E'. unfold apartb in A'.
        apply (oc_slice _ _ _ _ _ OC1); try lia. intros q l [J|[]]. pose proof (f_equal fst J) as J1. pose proof (f_equal snd J) as J2. cbn [fst snd] in J1, J2. lia.
      * exists m2. cbn [s_mem best best_size s_est] in *. split; [apply oc_trans with (m2 := m1); assumption|exact E2].
Qed.

Lemma cands_in : forall norms ys order d y, In (d, y) (cands norms ys order) <->
  In (d_norm d, y) (combine norms ys) /\ In (Settings (d_decorr d) (d_split d)) order.
Proof.
  intros norms ys order d y. unfold cands. rewrite in_flat_map. split.
  - intros ([m1 y1] & I & J). cbn [fst snd] in J. apply in_map_iff in J. destruct J as ([vv sp] & J & I2). injection J as <- <-.
    cbn [d_norm d_decorr d_split decorrelation_mode split_colour_endpoints]. auto.
  - intros [I J]. destruct d as [m1 vv sp]. cbn [d_norm d_decorr d_split] in *. exists (m1, y). split; [exact I|]. apply in_map_iff. exists (Settings vv sp). auto.
Qed.

Lemma grow_len : forall m k, 0 <= k -> zlen (grow fresh m k) = zlen m + k.
Proof. intros m k H. unfold grow. rewrite zlen_app. unfold zlen at 2. rewrite map_length, zseq_length. lia. Qed.
Lemma grow_slice : forall m k p n, 0 <= p -> 0 <= n -> p + n <= zlen m -> slice (grow fresh m k) p n = slice m p n.
Proof. intros m k p n H1 H2 H3. unfold grow. apply slice_ext; try lia.
  - rewrite zlen_app. pose proof (zlen_nonneg _ (map fresh (zseq (zlen m) (Z.to_nat k)))). lia.
  - intros t Ht. apply znth_app1. lia.
Qed.
Lemma grow_at : forall m k i, 0 <= i < zlen m -> znth (grow fresh m k) i = znth m i.
Proof. intros m k i H. unfold grow. apply znth_app1. lia. Qed.

(** The memory the caller sees is still there. *)
Definition keeps (m0 m : list byte) : Prop := zlen m0 <= zlen m /\ forall i, 0 <= i < zlen m0 -> znth m i = znth m0 i.
Lemma keeps_grow : forall m0 m k, 0 <= k -> keeps m0 m -> keeps m0 (grow fresh m k).
Proof. intros m0 m k H [K1 K2]. split; [rewrite grow_len; lia|]. intros i Hi. rewrite grow_at by lia. apply K2. lia. Qed.
Lemma keeps_oc : forall m0 m m' areas, only_changes areas m m' -> keeps m0 m -> (forall p l, In (p, l) areas -> zlen m0 <= p) -> keeps m0 m'.
Proof using. clear.
  intros m0 m m' areas [Z1 C1] [K1 K2] H. split; [lia|]. intros i Hi. rewrite C1; [apply K2; lia|lia|].
  intros p l I. specialize (H p l I). lia.
Qed.
Lemma keeps_slice : forall m0 m p n, keeps m0 m -> 0 <= p -> 0 <= n -> p + n <= zlen m0 -> slice m p n = slice m0 p n.
Proof using. clear. intros m0 m p n [K1 K2] H1 H2 H3. apply slice_ext; try lia. intros t Ht. apply K2. lia. Qed.
Lemma keeps_first : forall m0 m m' out len work wl, keeps m0 m -> only_changes [(out, len); (work, wl)] m m' -> zlen m0 <= work -> 0 <= out -> 0 <= len -> out + len <= zlen m0 ->
  only_changes [(out, len)] m0 (firstn (List.length m0) m') /\ slice (firstn (List.length m0) m') out len = slice m' out len.
Proof using. clear.
  intros m0 m m' out len work wl [K1 K2] [Z1 C1] W O1 O2 O3.
  assert (F : firstn (List.length m0) m' = slice m' 0 (zlen m0)) by (unfold slice, zlen; rewrite Nat2Z.id; reflexivity).
  assert (ZF : zlen (slice m' 0 (zlen m0)) = zlen m0) by (apply zlen_slice; lia).
  rewrite F. split; [split|].
  - exact ZF.
  - intros i Hi N. rewrite znth_slice by lia. cbn [Z.add]. rewrite C1; [apply K2; lia|lia|]. intros p l I.
    destruct I as [I|[I|[]]]; pose proof (f_equal fst I) as J1; pose proof (f_equal snd I) as J2; cbn [fst snd] in J1, J2.
    + apply N. left. exact I.
    + lia.
  - apply slice_ext; try lia. intros t Ht. rewrite znth_slice by lia. f_equal.
Qed.

Lemma decor_none : forall y n, zlen y = 8 * Z.of_nat n -> decor VNone (sec 0 y) = sec 0 y.
Proof.
  intros x n Hx. unfold decor. rewrite map_ident by reflexivity. pose proof (sec_len 0 x n ltac:(lia) Hx) as L.
  refine (even_ind (fun l => of_colours (to_colours l) = l) eq_refl _ (2 * n) (sec 0 x) _); [|lia].
  intros a b l IH. unfold of_colours in *. cbn [to_colours flat_map app]. rewrite IH, lo8_u16le, hi8_u16le. reflexivity.
Qed.
Lemma layout_half : forall y n, zlen y = 8 * Z.of_nat n -> zlen (bc1_layout VNone false y) = 8 * Z.of_nat n /\
  slice (bc1_layout VNone false y) 0 (4 * Z.of_nat n) = sec 0 y.
Proof.
  intros y n Hy. rewrite layout_parts. rewrite <- colour_part_plain, (decor_none y n Hy).
  pose proof (sec_len 0 y n ltac:(lia) Hy) as L0. pose proof (sec_len 4 y n ltac:(lia) Hy) as L4.
  split; [rewrite zlen_app; lia|apply slice_app1; lia].
Qed.

(** Splitting one normalised buffer into colours and indices. *)
Lemma one_split : forall m src dst n y, cpu_ok c -> within m src (8 * Z.of_nat n) -> within m dst (8 * Z.of_nat n) ->
  apartb src (8 * Z.of_nat n) dst (8 * Z.of_nat n) = true -> slice m src (8 * Z.of_nat n) = y ->
  exists m', transform_at c src dst (8 * Z.of_nat n) m = Ok m' /\ only_changes [(dst, 8 * Z.of_nat n)] m m' /\ slice m' dst (4 * Z.of_nat n) = sec 0 y.
Proof.
  intros m src dst n y K WI WO A E. rewrite transform_at_ok; try assumption; [|lia]. destruct WI as [I1 [I2 I3]]. destruct WO as [O1 [O2 O3]].
  assert (Hy : zlen y = 8 * Z.of_nat n) by (rewrite <- E; apply zlen_slice; lia). rewrite E. destruct (layout_half y n Hy) as [LL LH].
  eexists. split; [reflexivity|]. split; [apply oc_splice with (q := dst) (len := 8 * Z.of_nat n); try lia; left; reflexivity|].
  rewrite <- LH. apply slice_ext; try (rewrite ?zlen_splice; lia). intros t Ht. rewrite znth_splice by lia.
  replace ((dst <=? dst + t) && (dst + t <? dst + zlen (bc1_layout VNone false y))) with true by lia. f_equal. lia.
Qed.

Lemma oc1 : forall p l q len : Z, In (q, len) [(p, l)] -> q = p /\ len = l.
Proof. intros p l q len [I|[]]. split; [exact (f_equal fst (eq_sym I))|exact (f_equal snd (eq_sym I))]. Qed.

Lemma all_modes_at : forall m0 inp len, within m0 inp len -> len mod 8 = 0 ->
  let m := grow fresh m0 (3 * len) in
  exists any m' y0 y1 y2, bc1_normalize_blocks_all_modes (c_debug c) inp (three m0 len) len m = Ok (any, m') /\ keeps m0 m' /\ zlen m' = zlen m0 + 3 * len /\
    blockwise 8 (measured CNone) (slice m0 inp len) y0 /\ blockwise 8 (measured Color0Only) (slice m0 inp len) y1 /\ blockwise 8 (measured ReplicateColor) (slice m0 inp len) y2 /\
    slice m' (zlen m0) len = y0 /\ slice m' (zlen m0 + len) len = y1 /\ slice m' (zlen m0 + 2 * len) len = y2 /\
    (any = true <-> normalisable (slice m0 inp len)).
Proof.
  intros m0 inp len [I1 [I2 I3]] M m. assert (ZM : zlen m = zlen m0 + 3 * len) by (apply grow_len; lia).
  assert (SX : forall p n, 0 <= p -> 0 <= n -> p + n <= zlen m0 -> slice m p n = slice m0 p n) by (intros; apply grow_slice; lia).
  unfold three.
  destruct (lC39_bc1 (c_debug c) m inp len (zlen m0) (zlen m0 + len) (zlen m0 + 2 * len)) as (any & m' & E & OC & K0 & K1 & K2 & AN);
    try (unfold within; lia); try (unfold apart; lia); try (right; unfold apart; lia); try exact M.
  rewrite SX in K0, K1, K2 by lia. exists any, m', (slice m' (zlen m0) len), (slice m' (zlen m0 + len) len), (slice m' (zlen m0 + 2 * len) len).
  split; [exact E|]. split.
  { apply (keeps_oc m0 m m' _ OC).
    - split; [lia|]. intros i Hi. apply grow_at. lia.
    - pose proof (zlen_nonneg _ m0). intros p l I. cbn [In] in I. destruct I as [I|[I|[I|[]]]]; pose proof (f_equal fst I) as J; cbn [fst] in J; lia. }
  split; [rewrite (proj1 OC); exact ZM|]. split; [exact K0|]. split; [exact K1|]. split; [exact K2|].
  split; [reflexivity|]. split; [reflexivity|]. split; [reflexivity|]. rewrite AN. unfold normalisable.
  assert (ZX : zlen (slice m0 inp len) = len) by (apply zlen_slice; lia). rewrite ZX.
  assert (SB : forall k, 0 <= k -> 8 * (k + 1) <= len -> slice (slice m0 inp len) (8 * k) 8 = slice m (inp + 8 * k) 8).
  { intros k H1 H2. rewrite SX by lia. apply slice_slice; lia. }
  split; intros (k & H1 & H2 & H3); exists k; (split; [exact H1|]); (split; [exact H2|]); rewrite ?SB in * by assumption; exact H3.
Qed.

Lemma auto_some_exact : forall m0 inp out len st, cpu_ok c -> len mod 8 = 0 -> within m0 inp len -> within m0 out len -> apartb inp len out len = true ->
  normalisable (slice m0 inp len) -> split_len_ok c (len / 8) ->
  let run := transform_bc1_auto_with_normalization c v e use_all fresh true inp out len m0 st in
  exists y0 y1 y2, blockwise 8 (measured CNone) (slice m0 inp len) y0 /\ blockwise 8 (measured Color0Only) (slice m0 inp len) y1 /\
    blockwise 8 (measured ReplicateColor) (slice m0 inp len) y2 /\
  if negb (alloc_ok v len) then run = Ok (RErr AllocateError, m0, st) else
  match max_compressed_size e st (len / 2) with
  | (RErr e1, st1) => run = Ok (RErr (SizeEstimationError e1), m0, st1)
  | (ROk scratch, st1) =>
      if negb (scratch =? 0) && negb (alloc_ok v scratch) then run = Ok (RErr AllocateError, m0, st1)
      else if negb (alloc_ok v (len / 2)) then run = Ok (RErr AllocateError, m0, st1)
      else exists d bs st2 m', tries scratch (cands all_color_norms [y0; y1; y2] (order1 use_all)) default_details (usize_max v) st1 = (d, bs, st2) /\
        run = Ok (ROk d, m', st2) /\
        only_changes [(out, len)] m0 m' /\ slice m' out len = bc1_layout (d_decorr d) (d_split d) (normalised (d_norm d) (slice m0 inp len))
  end.
Proof.
  intros m0 inp out len st K M WI WO A NB SL run.
  destruct (all_modes_at m0 inp len WI M) as (any & m1 & y0 & y1 & y2 & E1 & KP1 & Z1 & B0 & B1 & B2 & S0 & S1 & S2 & AN).
  exists y0, y1, y2. split; [exact B0|]. split; [exact B1|]. split; [exact B2|].
  subst run. unfold transform_bc1_auto_with_normalization. destruct (alloc_ok v len) eqn:AL; cbn [negb].
  2:{ reflexivity. }
  destruct (max_compressed_size e st (len / 2)) as [[scratch|e1] st1].
  2:{ reflexivity. }
  destruct (negb (scratch =? 0) && negb (alloc_ok v scratch)) eqn:AC.
  { reflexivity. }
  cbv zeta in E1. rewrite E1. cbn [bind]. apply AN in NB. rewrite NB. cbn [negb].
  destruct WI as [I1 [I2 I3]]. destruct WO as [O1 [O2 O3]].
  assert (EN : exists n, len = 8 * Z.of_nat n) by (exists (Z.to_nat (len / 8)); lia). destruct EN as [n EN]. subst len.
  replace (8 * Z.of_nat n / 8) with (Z.of_nat n) in * by lia. replace (8 * Z.of_nat n / 2) with (4 * Z.of_nat n) in * by lia.
  pose proof (zlen_nonneg _ m0) as P0.
  set (m2 := grow fresh m1 (3 * (8 * Z.of_nat n))). assert (Z2 : zlen m2 = zlen m0 + 48 * Z.of_nat n) by (unfold m2; rewrite grow_len; lia).
  assert (KP2 : keeps m0 m2) by (apply keeps_grow; [lia|exact KP1]).
  assert (T0 : slice m2 (zlen m0) (8 * Z.of_nat n) = y0) by (unfold m2; rewrite grow_slice by lia; exact S0).
  assert (T1 : slice m2 (zlen m0 + 8 * Z.of_nat n) (8 * Z.of_nat n) = y1) by (unfold m2; rewrite grow_slice by lia; exact S1).
  assert (T2 : slice m2 (zlen m0 + 2 * (8 * Z.of_nat n)) (8 * Z.of_nat n) = y2) by (unfold m2; rewrite grow_slice by lia; exact S2).
  clearbody m2. unfold three. rewrite Z1. cbn [for_dsts].
  destruct (one_split m2 (zlen m0) (zlen m0 + 3 * (8 * Z.of_nat n)) n y0) as (m3 & E3 & OC3 & U0); try (unfold within; lia); try (unfold apartb; lia); try assumption.
  rewrite E3. cbn [bind]. pose proof (proj1 OC3) as Z3.
  destruct (one_split m3 (zlen m0 + 8 * Z.of_nat n) (zlen m0 + 3 * (8 * Z.of_nat n) + 8 * Z.of_nat n) n y1) as (m4 & E4 & OC4 & U1); try (unfold within; lia); try (unfold apartb; lia); try assumption.
  { rewrite <- T1. apply (oc_slice _ _ _ _ _ OC3); try lia. intros q l I. apply oc1 in I. lia. }
  rewrite E4. cbn [bind]. pose proof (proj1 OC4) as Z4.
  destruct (one_split m4 (zlen m0 + 2 * (8 * Z.of_nat n)) (zlen m0 + 3 * (8 * Z.of_nat n) + 2 * (8 * Z.of_nat n)) n y2) as (m5 & E5 & OC5 & U2); try (unfold within; lia); try (unfold apartb; lia); try assumption.
  { rewrite <- T2. transitivity (slice m3 (zlen m0 + 2 * (8 * Z.of_nat n)) (8 * Z.of_nat n)).
    - apply (oc_slice _ _ _ _ _ OC4); try lia. intros q l I. apply oc1 in I. lia.
    - apply (oc_slice _ _ _ _ _ OC3); try lia. intros q l I. apply oc1 in I. lia. }
  rewrite E5. cbn [bind]. pose proof (proj1 OC5) as Z5.
  assert (V0 : slice m5 (zlen m0 + 3 * (8 * Z.of_nat n)) (4 * Z.of_nat n) = sec 0 y0).
  { rewrite <- U0. transitivity (slice m4 (zlen m0 + 3 * (8 * Z.of_nat n)) (4 * Z.of_nat n)).
    - apply (oc_slice _ _ _ _ _ OC5); try lia. intros q l I. apply oc1 in I. lia.
    - apply (oc_slice _ _ _ _ _ OC4); try lia. intros q l I. apply oc1 in I. lia. }
  assert (V1 : slice m5 (zlen m0 + 3 * (8 * Z.of_nat n) + 8 * Z.of_nat n) (4 * Z.of_nat n) = sec 0 y1).
  { rewrite <- U1. apply (oc_slice _ _ _ _ _ OC5); try lia. intros q l I. apply oc1 in I. lia. }
  assert (KP5 : keeps m0 m5).
  { apply (keeps_oc m0 m4 m5 _ OC5); [|intros p l I; apply oc1 in I; lia]. apply (keeps_oc m0 m3 m4 _ OC4); [|intros p l I; apply oc1 in I; lia].
    apply (keeps_oc m0 m2 m3 _ OC3); [exact KP2|intros p l I; apply oc1 in I; lia]. }
  clear E3 E4 E5 OC3 OC4 OC5 U0 U1 T0 T1 T2 S0 S1 S2.
  destruct (alloc_ok v (4 * Z.of_nat n)) eqn:AW; cbn [negb].
  2:{ reflexivity. }
  set (m6 := grow fresh m5 (4 * Z.of_nat n)). assert (Z6 : zlen m6 = zlen m5 + 4 * Z.of_nat n) by (apply grow_len; lia).
  assert (KP6 : keeps m0 m6) by (apply keeps_grow; [lia|exact KP5]).
  rewrite <- (grow_slice m5 (4 * Z.of_nat n)) in V0, V1, U2 by lia. fold m6 in V0, V1, U2. clearbody m6.
  assert (ZX : zlen (slice m0 inp (8 * Z.of_nat n)) = 8 * Z.of_nat n) by (apply zlen_slice; lia).
  assert (Y0 : zlen y0 = 8 * Z.of_nat n) by (rewrite (proj1 B0); exact ZX).
  assert (Y1 : zlen y1 = 8 * Z.of_nat n) by (rewrite (proj1 B1); exact ZX).
  assert (Y2 : zlen y2 = 8 * Z.of_nat n) by (rewrite (proj1 B2); exact ZX).
  fold (order1 use_all).
  destruct (test_norms_ok (zlen m5) n scratch (order1 use_all) all_color_norms
    [zlen m0 + 3 * (8 * Z.of_nat n); zlen m0 + 3 * (8 * Z.of_nat n) + 8 * Z.of_nat n; zlen m0 + 3 * (8 * Z.of_nat n) + 2 * (8 * Z.of_nat n)] [y0; y1; y2]
    (Search default_details (usize_max v) m6 st1)) as (m7 & OC7 & E7); cbn [s_mem] in *; try assumption.
  { unfold within. lia. }
  { constructor; [|constructor; [|constructor; [|constructor]]].
    - split; [exact Y0|]. split; [unfold within; lia|]. split; [unfold apartb; lia|exact V0].
    - split; [exact Y1|]. split; [unfold within; lia|]. split; [unfold apartb; lia|exact V1].
    - split; [exact Y2|]. split; [unfold within; lia|]. split; [unfold apartb; lia|exact U2]. }
  rewrite E7. cbn [bind s_mem best best_size s_est]. clear E7.
  destruct (tries scratch (cands all_color_norms [y0; y1; y2] (order1 use_all)) default_details (usize_max v) st1) as [[d bs] st2] eqn:TR.
  cbn [s_mem best best_size s_est]. pose proof (proj1 OC7) as Z7.
  assert (KP7 : keeps m0 m7) by (apply (keeps_oc m0 m6 m7 _ OC7); [exact KP6|intros p l I; apply oc1 in I; lia]).
  unfold apartb in A.
  destruct (with_normalize_ok c m7 inp out (zlen m5) (8 * Z.of_nat n) d) as (m8 & E8 & OC8 & S8); try assumption;
    replace (8 * Z.of_nat n / 2) with (4 * Z.of_nat n) in * by lia; replace (8 * Z.of_nat n / 8) with (Z.of_nat n) in * by lia;
    try (unfold within; lia); try (unfold apartb; lia).
  { intros _. exact SL. }
  rewrite E8. cbn [bind].
  destruct (keeps_first m0 m7 m8 out (8 * Z.of_nat n) (zlen m5) (4 * Z.of_nat n) KP7 OC8) as [F1 F2]; try lia.
  exists d, bs, st2, (firstn (List.length m0) m8). split; [reflexivity|]. split; [reflexivity|]. split; [exact F1|].
  rewrite F2, S8. rewrite (keeps_slice m0 m7) by (assumption || lia). reflexivity.
Qed.
Lemma auto_some : forall m0 inp out len st, cpu_ok c -> len mod 8 = 0 -> within m0 inp len -> within m0 out len -> apartb inp len out len = true ->
  normalisable (slice m0 inp len) -> split_len_ok c (len / 8) ->
  exists y0 y1 y2, blockwise 8 (measured CNone) (slice m0 inp len) y0 /\ blockwise 8 (measured Color0Only) (slice m0 inp len) y1 /\
    blockwise 8 (measured ReplicateColor) (slice m0 inp len) y2 /\
  ((exists st1 n, transform_bc1_auto_with_normalization c v e use_all fresh true inp out len m0 st = Ok (RErr AllocateError, m0, st1) /\ alloc_ok v n = false) \/
   (exists e1 st1, max_compressed_size e st (len / 2) = (RErr e1, st1) /\
      transform_bc1_auto_with_normalization c v e use_all fresh true inp out len m0 st = Ok (RErr (SizeEstimationError e1), m0, st1)) \/
   (exists scratch st1 d bs st2 m', max_compressed_size e st (len / 2) = (ROk scratch, st1) /\
      tries scratch (cands all_color_norms [y0; y1; y2] (order1 use_all)) default_details (usize_max v) st1 = (d, bs, st2) /\
      transform_bc1_auto_with_normalization c v e use_all fresh true inp out len m0 st = Ok (ROk d, m', st2) /\
      only_changes [(out, len)] m0 m' /\ slice m' out len = bc1_layout (d_decorr d) (d_split d) (normalised (d_norm d) (slice m0 inp len)))).
Proof.
  intros m0 inp out len st K M WI WO A NB SL. destruct (auto_some_exact m0 inp out len st K M WI WO A NB SL) as (y0 & y1 & y2 & B0 & B1 & B2 & R).
  exists y0, y1, y2. split; [exact B0|]. split; [exact B1|]. split; [exact B2|].
  destruct (alloc_ok v len) eqn:AL; cbn [negb] in R; [|left; exists st, len; split; assumption].
  destruct (max_compressed_size e st (len / 2)) as [[scratch|e1] st1]; [|right; left; exists e1, st1; split; [reflexivity|exact R]].
  destruct (negb (scratch =? 0) && negb (alloc_ok v scratch)) eqn:AC.
  { left. exists st1, scratch. split; [exact R|]. destruct (alloc_ok v scratch); [destruct (scratch =? 0); discriminate AC|reflexivity]. }
  destruct (alloc_ok v (len / 2)) eqn:AW; cbn [negb] in R; [|left; exists st1, (len / 2); split; assumption].
  destruct R as (d & bs & st2 & m' & TR & R & OC & S). right. right. exists scratch, st1, d, bs, st2, m'. split; [reflexivity|]. auto.
Qed.
End Tries.
