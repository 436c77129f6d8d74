(** Proofs/NormAutoTheorems.v for a big-endian machine (generated by tools/gen_be_norm.py). *)
From Verif Require Import Base.Bytes Base.Res Model.Color565 Model.Ycc Model.Kernel Model.GenBeBc1Std Model.GenBeSplit565
  Model.ColorSlices Model.Transform Model.Auto Model.Decode Model.Normalize Model.NormTransform Model.BeTransform Model.BeFiles Model.BeNormTransform
  Spec.YCoCg Spec.Layout Spec.BigEndian Spec.Pixels Spec.Normalize Spec.Estimator Spec.NormTransform Spec.BeFiles
  Proofs.KernelCheck Proofs.KernelLoop Proofs.KernelFun Proofs.Shapes Proofs.LayoutFacts Proofs.ShapeLayout Proofs.KBc1ScrU Proofs.KBeBc1Std
  Proofs.Families Proofs.BeFamilies Proofs.TransformFacts Proofs.SliceFacts Proofs.BeTransformFacts Proofs.BeSliceFacts Proofs.BigEndianFacts Proofs.ColorSlicesFacts
  Proofs.AutoFacts Proofs.AutoProps Proofs.AutoTheorems Proofs.BeAutoProps
  Proofs.NormLoop Proofs.NormPixels Proofs.NormalizeFacts Proofs.NormSplit Proofs.NormDerived Proofs.NormTransformFacts Proofs.NormAuto Proofs.NormAutoTheorems Proofs.BeNormTransformFacts Proofs.BeNormAuto.
From Coq Require Import ZifyBool ZifyNat.

Lemma be_bc1_layout_len : forall v sp x, zlen x mod 8 = 0 -> zlen (be_bc1_layout v sp x) = zlen x.
Proof.
  intros v sp x M. destruct (be_bc1_fam v sp) as (sht & shu & FM). apply (lay_zlen _ _ _ _ _ _ x FM); [lia|exact M].
Qed.

(** ** When nothing can be normalised *)
Section None.
Context {St Er : Type}.
Variables (c : cfg) (v : env) (e : estimator St Er) (use_all : bool) (fresh : Z -> byte).

Lemma be_auto_ptr_at : forall m inp out len st, cpu_ok c -> len mod 8 = 0 -> within m inp len -> within m out len ->
  let x := slice m inp len in
  let run := be_transform_bc1_auto_ptr c v e use_all (Ptr BIn inp) (Ptr BOut out) len (Mem m [] m) st in
  exists m', only_changes [(out, len)] m m' /\
  match max_compressed_size e st (len / 2) with
  | (RErr e1, st1) => run = Ok (RErr (SizeEstimationError e1), Mem m [] m', st1)
  | (ROk n, st1) =>
      if negb (n =? 0) && negb (alloc_ok v n)
      then run = Ok (RErr AllocateError, Mem m [] m', st1)
      else match srch e (be_bc1_shown x) n (order1 use_all) default_settings (usize_max v) st1 with
           | (ROk s, st2) => run = Ok (ROk s, Mem m [] m', st2) /\ slice m' out len = be_bc1_layout (decorrelation_mode s) (split_colour_endpoints s) x
           | (RErr e1, st2) => run = Ok (RErr (SizeEstimationError e1), Mem m [] m', st2)
           end
  end.
Proof.
  intros m inp out len st K M [I1 [I2 I3]] [O1 [O2 O3]] x run.
  assert (Hx : zlen x = len) by (apply zlen_slice; lia).
  set (L := fun s => be_bc1_layout (decorrelation_mode s) (split_colour_endpoints s) x).
  assert (LL : forall s, zlen (L s) = len) by (intros s; unfold L; rewrite be_bc1_layout_len by (rewrite Hx; exact M); exact Hx).
  assert (OC : forall s, only_changes [(out, len)] m (splice m out (L s))).
  { intros s. apply oc_splice with (q := out) (len := len); rewrite ?LL; try lia. left. reflexivity. }
  assert (HT : forall s o, zlen o = zlen m -> be_transform_bc1_with_settings c (Ptr BIn inp) (Ptr BOut out) len s (Mem m [] o) = Ok (Mem m [] (splice o out (L s)))).
  { intros s o Ho. apply be_bc1_call; try assumption; try lia. }
  assert (HE : forall n s st, In s (order1 use_all) -> estimate_at e (Ptr BOut out) (len / 2) n (Mem m [] (splice m out (L s))) st = Ok (est_all e (be_bc1_shown x s) n 0 st)).
  { intros n s st0 _. unfold estimate_at, mload. cbn [p_buf p_off buf_of m_out]. rewrite zlen_splice by (rewrite ?LL; lia).
    replace ((0 <=? out) && (out + len / 2 <=? zlen m)) with true by lia. cbn [bind]. unfold be_bc1_shown. rewrite one_est. do 2 f_equal.
    transitivity (slice (L s) 0 (len / 2)).
    - apply slice_ext; try (rewrite ?zlen_splice; rewrite ?LL; lia). intros t Ht. rewrite znth_splice by (rewrite ?LL; lia). rewrite LL.
      replace ((out <=? out + t) && (out + t <? out + len)) with true by lia. f_equal. lia.
    - unfold L. rewrite be_layout_parts. apply slice_app1. fold (be_colour_part (decorrelation_mode s) (split_colour_endpoints s) x). rewrite (be_colour_part_len _ _ x (Z.to_nat (len / 8))) by lia. lia. }
  destruct (search_srch v e (be_bc1_shown x) m [] m out len L (fun s m => be_transform_bc1_with_settings c (Ptr BIn inp) (Ptr BOut out) len s m)
    (fun scratch m st => estimate_at e (Ptr BOut out) (len / 2) scratch m st) settings_eqb (order1 use_all) default_settings
    HT LL O1 O3 HE settings_eqb_spec ltac:(destruct use_all; discriminate) (len / 2) st) as (m' & R).
  fold (be_transform_bc1_auto_ptr c v e use_all (Ptr BIn inp) (Ptr BOut out) len (Mem m [] m) st) in R.
  unfold be_transform_bc1_auto_ptr in run. fold (order1 use_all) in run. fold run in R. clearbody run.
  destruct (max_compressed_size e st (len / 2)) as [[n|e1] st1].
  2:{ exists m. destruct R as [R ->]. split; [apply oc_refl|exact R]. }
  destruct (negb (n =? 0) && negb (alloc_ok v n)).
  { exists m. destruct R as [R ->]. split; [apply oc_refl|exact R]. }
  destruct (srch e (be_bc1_shown x) n (order1 use_all) default_settings (usize_max v) st1) as [[s|e1] st2].
  - exists m'. destruct R as [R ->]. split; [apply OC|]. split; [exact R|]. fold (L s). apply slice_splice_same'; rewrite ?LL; lia.
  - exists m'. destruct R as [R [s ->]]. split; [apply OC|exact R].
Qed.

Lemma be_auto_none : forall even m0 inp out len st, cpu_ok c -> len mod 8 = 0 -> within m0 inp len -> within m0 out len ->
  apartb inp len out len = true -> ~ normalisable (slice m0 inp len) ->
  let x := slice m0 inp len in
  let run := be_transform_bc1_auto_with_normalization c v e use_all fresh even inp out len m0 st in
  exists m', only_changes [(out, len)] m0 m' /\
  if negb (alloc_ok v len) then run = Ok (RErr AllocateError, m', st) else
  match max_compressed_size e st (len / 2) with
  | (RErr e1, st1) => run = Ok (RErr (SizeEstimationError e1), m', st1)
  | (ROk n, st1) =>
      if negb (n =? 0) && negb (alloc_ok v n) then run = Ok (RErr AllocateError, m', st1)
      else match max_compressed_size e st1 (len / 2) with
      | (RErr e1, st2) => run = Ok (RErr (SizeEstimationError e1), m', st2)
      | (ROk n, st2) =>
          if negb (n =? 0) && negb (alloc_ok v n) then run = Ok (RErr AllocateError, m', st2)
          else match srch e (be_bc1_shown x) n (order1 use_all) default_settings (usize_max v) st2 with
           | (ROk s, st3) => run = Ok (ROk (details_of_settings s), m', st3) /\ slice m' out len = be_bc1_layout (decorrelation_mode s) (split_colour_endpoints s) x
           | (RErr e1, st3) => run = Ok (RErr (SizeEstimationError e1), m', st3)
           end
      end
  end.
Proof.
  intros even m0 inp out len st K M WI WO A NB x run.
  destruct (all_modes_at c fresh m0 inp len WI M) as (any & m1 & y0 & y1 & y2 & E1 & KP1 & Z1 & _ & _ & _ & _ & _ & _ & AN). cbv zeta in E1.
  assert (F : any = false) by (destruct any; [destruct NB; apply AN; reflexivity|reflexivity]). subst any.
  subst run. unfold be_transform_bc1_auto_with_normalization.
  destruct (alloc_ok v len) eqn:AL; cbn [negb]; [|exists m0; split; [apply oc_refl|reflexivity]].
  destruct (max_compressed_size e st (len / 2)) as [[n|e1] st1]; [|exists m0; split; [apply oc_refl|reflexivity]].
  destruct (negb (n =? 0) && negb (alloc_ok v n)); [exists m0; split; [apply oc_refl|reflexivity]|].
  rewrite E1. cbn [bind]. rewrite A. destruct WI as [I1 [I2 I3]]. destruct WO as [O1 [O2 O3]].
  pose proof (zlen_nonneg _ m0) as P0.
  destruct (be_auto_ptr_at m1 inp out len st1 K M ltac:(unfold within; lia) ltac:(unfold within; lia)) as (m2 & OC & R).
  assert (SX : slice m1 inp len = x) by (apply keeps_slice; [exact KP1|lia..]). rewrite SX in R.
  assert (OC2 : only_changes [(out, len); (zlen m0, 0)] m1 m2).
  { apply (oc_incl _ _ _ _ OC). intros p l I. apply oc1 in I. destruct I as [-> ->]. exists out, len. split; [left; reflexivity|lia]. }
  destruct (keeps_first m0 m1 m2 out len (zlen m0) 0 KP1 OC2) as [F1 F2]; try lia.
  exists (firstn (List.length m0) m2). split; [exact F1|].
  destruct (max_compressed_size e st1 (len / 2)) as [[n2|e1] st2]; [|rewrite R; reflexivity].
  destruct (negb (n2 =? 0) && negb (alloc_ok v n2)); [rewrite R; reflexivity|].
  destruct (srch e (be_bc1_shown x) n2 (order1 use_all) default_settings (usize_max v) st2) as [[s|e1] st3]; [|rewrite R; reflexivity].
  destruct R as [R S]. rewrite R. split; [reflexivity|]. rewrite F2. exact S.
Qed.
End None.

Lemma be_tries_pure : forall {Er} (mx : Z -> result Z Er) size comp l b bs d bs' st', be_tries (pure mx size) comp l b bs tt = (d, bs', st') ->
  bs' <= bs /\ ((d = b /\ bs' = bs) \/ exists y, In (d, y) l /\ size (be_colour_part (d_decorr d) (d_split d) y) comp = ROk bs') /\
  forall d' y' z', In (d', y') l -> size (be_colour_part (d_decorr d') (d_split d') y') comp = ROk z' -> bs' <= z'.
Proof.
  intros Er mx size comp l. induction l as [|[d0 y0] l IH]; intros b bs d bs' st' H; cbn [be_tries] in H.
  - injection H as <- <- _. split; [lia|]. split; [left; auto|intros d' y' z' []].
  - unfold pure at 1 in H. cbn [estimate_compressed_size] in H.
    destruct (size (be_colour_part (d_decorr d0) (d_split d0) y0) comp) as [z|e1] eqn:E.
    + destruct (z <? bs) eqn:C; apply IH in H; destruct H as (A & B & D).
      * split; [lia|]. split.
        { right. destruct B as [[-> ->]|[y [I S]]]; [exists y0; split; [left; reflexivity|exact E]|exists y; split; [right; exact I|exact S]]. }
        { intros d' y' z' [J|I] S; [|apply (D d' y' z' I S)]. injection J as <- <-. rewrite E in S. injection S as <-. lia. }
      * split; [lia|]. split.
        { destruct B as [B|[y [I S]]]; [left; exact B|right; exists y; split; [right; exact I|exact S]]. }
        { intros d' y' z' [J|I] S; [|apply (D d' y' z' I S)]. injection J as <- <-. rewrite E in S. injection S as <-. lia. }
    + apply IH in H. destruct H as (A & B & D). split; [lia|]. split.
      * destruct B as [B|[y [I S]]]; [left; exact B|right; exists y; split; [right; exact I|exact S]].
      * intros d' y' z' [J|I] S; [|apply (D d' y' z' I S)]. injection J as <- <-. rewrite E in S. discriminate S.
Qed.

(** ** C51 *)
Lemma be_layout_unique : forall v sp y y', zlen y = zlen y' -> zlen y mod 8 = 0 -> be_bc1_layout v sp y = be_bc1_layout v sp y' -> y = y'.
Proof.
  intros v sp y y' L M E. destruct (be_bc1_fam v sp) as (sht & shu & FM). unfold zlen in *.
  assert (Q : inverse_of 8 (be_bc1_fields v sp) (be_bc1_layout v sp y) y).
  { split; [|reflexivity]. pose proof (be_bc1_layout_len v sp y M) as LL. unfold zlen in LL. lia. }
  apply (FAM_injective _ _ _ _ _ _ (be_bc1_layout v sp y) y y' FM); [lia| |exact Q|].
  - destruct Q as [Q _]. lia.
  - split; [destruct Q as [Q _]; lia|]. symmetry. exact E.
Qed.

Lemma be_restored : forall c d (y out2 : list byte), cpu_ok c -> zlen y mod 8 = 0 -> zlen y <= zlen out2 ->
  be_untransform_bc1 c (untransform_settings d) (be_bc1_layout (d_decorr d) (d_split d) y) out2 = Ok (ROk tt, y ++ skipn (List.length y) out2).
Proof.
  intros c d y out2 K M L. pose proof (be_bc1_layout_len (d_decorr d) (d_split d) y M) as LL.
  destruct (be_unbc1_slice c (untransform_settings d) (be_bc1_layout (d_decorr d) (d_split d) y) out2 K) as (z & E & LZ & EZ); try (rewrite LL; assumption).
  cbn [untransform_settings decorrelation_mode split_colour_endpoints] in EZ.
  assert (Z1 : z = y). { apply (be_layout_unique (d_decorr d) (d_split d)); [unfold zlen in *; lia|unfold zlen in *; lia|exact EZ]. }
  subst z. rewrite E. do 4 f_equal. unfold zlen in LL. lia.
Qed.

Lemma be_norm_even : forall c even inp out work len d m, even = true \/ d_decorr d = VNone ->
  be_transform_bc1_with_normalize_blocks c even inp out work len d m = be_transform_bc1_with_normalize_blocks c true inp out work len d m.
Proof. intros c [] inp out work len d m H; [reflexivity|]. destruct H as [H|H]; [discriminate H|]. unfold be_transform_bc1_with_normalize_blocks. rewrite H. reflexivity. Qed.

Lemma be_lC51 : forall c c2 even m inp out work len d (out2 : list byte), cpu_ok c -> cpu_ok c2 -> len mod 8 = 0 ->
  within m inp len -> within m out len -> within m work (len / 2) ->
  inp + len <= out \/ out + len <= inp -> inp + len <= work \/ work + len / 2 <= inp -> work + len / 2 <= out \/ out + len <= work ->
  even = true \/ d_decorr d = VNone -> (d_split d = true -> (c_debug c = true -> 0 < len / 8)) -> len <= zlen out2 ->
  exists m' y, be_transform_bc1_with_normalize_blocks c even inp out work len d m = Ok m' /\ only_changes [(out, len); (work, len / 2)] m m' /\
    blockwise 8 (bc1_normal (d_norm d)) (slice m inp len) y /\
    blockwise 8 (fun b b' => picture bc1_pixel b' = picture bc1_pixel b) (slice m inp len) y /\
    slice m' out len = be_bc1_layout (d_decorr d) (d_split d) y /\
    be_untransform_bc1 c2 (untransform_settings d) (slice m' out len) out2 = Ok (ROk tt, y ++ skipn (Z.to_nat len) out2).
Proof.
  intros c c2 even m inp out work len d out2 K K2 M WI WO WW A1 A2 A3 EV SL L2. rewrite (be_norm_even _ _ _ _ _ _ _ _ EV).
  destruct (be_with_normalize_ok c m inp out work len d K M WI WO WW) as (m' & E & OC & S); try (apply apartb_iff; assumption); try exact SL.
  destruct WI as [I1 [I2 I3]]. set (x := slice m inp len) in *. assert (Hx : zlen x = len) by (apply zlen_slice; lia).
  assert (Hy : zlen (normalised (d_norm d) x) = len) by (rewrite (normalised_len (d_norm d) (Z.to_nat (len / 8)) x); lia).
  destruct (normalised_picture (d_norm d) x ltac:(lia)) as [B P].
  exists m', (normalised (d_norm d) x). split; [exact E|]. split; [exact OC|]. split; [exact B|]. split; [exact P|]. split; [exact S|].
  rewrite S. rewrite be_restored; [|exact K2|lia|lia].
  do 4 f_equal. unfold zlen in Hy. lia.
Qed.

Lemma be_lC51_none : forall c c2 even m inp out work len d m' (out2 : list byte), cpu_ok c -> cpu_ok c2 -> len mod 8 = 0 ->
  within m inp len -> within m out len -> within m work (len / 2) ->
  inp + len <= out \/ out + len <= inp -> inp + len <= work \/ work + len / 2 <= inp -> work + len / 2 <= out \/ out + len <= work ->
  even = true \/ d_decorr d = VNone -> (d_split d = true -> (c_debug c = true -> 0 < len / 8)) -> len <= zlen out2 ->
  d_norm d = CNone -> be_transform_bc1_with_normalize_blocks c even inp out work len d m = Ok m' ->
  be_transform_bc1 c2 (untransform_settings d) (slice m inp len) out2 = Ok (ROk tt, slice m' out len ++ skipn (Z.to_nat len) out2).
Proof.
  intros c c2 even m inp out work len d m' out2 K K2 M WI WO WW A1 A2 A3 EV SL L2 N E. rewrite (be_norm_even _ _ _ _ _ _ _ _ EV) in E.
  destruct (be_with_normalize_ok c m inp out work len d K M WI WO WW) as (m1 & E1 & OC & S); try (apply apartb_iff; assumption); try exact SL.
  rewrite E in E1. injection E1 as <-. destruct WI as [I1 [I2 I3]]. set (x := slice m inp len) in *. assert (Hx : zlen x = len) by (apply zlen_slice; lia).
  rewrite N in S. rewrite (normalised_none (Z.to_nat (len / 8)) x) in S by lia. rewrite S.
  rewrite be_bc1_slice; [cbn [untransform_settings decorrelation_mode split_colour_endpoints]; do 4 f_equal; unfold zlen in Hx; lia|exact K2|lia|lia].
Qed.

Lemma be_norm_odd_ok : forall c even inp out work len d m m', be_transform_bc1_with_normalize_blocks c even inp out work len d m = Ok m' ->
  be_transform_bc1_with_normalize_blocks c true inp out work len d m = Ok m'.
Proof.
  intros c even inp out work len d m m'. unfold be_transform_bc1_with_normalize_blocks.
  assert (D : forall p n v (q : res (list byte)) m', (do m <- q ;; be_decorrelate_at even p n v m) = Ok m' -> (do m <- q ;; be_decorrelate_at true p n v m) = Ok m').
  { intros p n v [m1|w|w] m2 H; try discriminate H. cbn [bind] in *. unfold be_decorrelate_at in *. destruct (negb even && reads_colours n v); [discriminate H|exact H]. }
  destruct (debug_assert _ _ _) as [u|w|w]; [|intros H; discriminate H..]. cbn [bind].
  destruct (_ && d_split d).
  - destruct (be_transform_separate_at _ _ _ _ _ _) as [m1|w|w]; [|intros H; discriminate H..]. cbn [bind].
    destruct (bc1_normalize_split_blocks_in_place _ _ _ _ _) as [m2|w|w]; [|intros H; discriminate H..]. cbn [bind]. apply D.
  - destruct (match d_norm d with CNone => false | _ => true end).
    + destruct (be_transform_at _ _ _ _ _) as [m1|w|w]; [|intros H; discriminate H..]. cbn [bind]. apply D.
    + destruct (d_split d).
      * destruct (be_transform_separate_at _ _ _ _ _ _) as [m1|w|w]; [|intros H; discriminate H..]. cbn [bind]. apply D.
      * apply D.
Qed.
Lemma be_norm_odd_ub : forall c inp out work len d m m', be_transform_bc1_with_normalize_blocks c true inp out work len d m = Ok m' ->
  reads_colours (len / 2 / 2) (d_decorr d) = true -> exists why, be_transform_bc1_with_normalize_blocks c false inp out work len d m = Ub why.
Proof.
  intros c inp out work len d m m' H R. revert H. unfold be_transform_bc1_with_normalize_blocks.
  assert (D : forall p (q : res (list byte)) m', (do m <- q ;; be_decorrelate_at true p (len / 2 / 2) (d_decorr d) m) = Ok m' ->
    exists why, (do m <- q ;; be_decorrelate_at false p (len / 2 / 2) (d_decorr d) m) = Ub why).
  { intros p [m1|w|w] m2 H; try discriminate H. cbn [bind] in *. unfold be_decorrelate_at. rewrite R. eexists. reflexivity. }
  destruct (debug_assert _ _ _) as [u|w|w]; [|intros H; discriminate H..]. cbn [bind].
  destruct (_ && d_split d).
  - destruct (be_transform_separate_at _ _ _ _ _ _) as [m1|w|w]; [|intros H; discriminate H..]. cbn [bind].
    destruct (bc1_normalize_split_blocks_in_place _ _ _ _ _) as [m2|w|w]; [|intros H; discriminate H..]. cbn [bind]. apply D.
  - destruct (match d_norm d with CNone => false | _ => true end).
    + destruct (be_transform_at _ _ _ _ _) as [m1|w|w]; [|intros H; discriminate H..]. cbn [bind]. apply D.
    + destruct (d_split d).
      * destruct (be_transform_separate_at _ _ _ _ _ _) as [m1|w|w]; [|intros H; discriminate H..]. cbn [bind]. apply D.
      * apply D.
Qed.
Lemma be_auto_even : forall (St Er : Type) c v (e : estimator St Er) all fresh even inp out len m st r,
  be_transform_bc1_auto_with_normalization c v e all fresh even inp out len m st = Ok r ->
  be_transform_bc1_auto_with_normalization c v e all fresh true inp out len m st = Ok r.
Proof.
  intros St Er c v e all fresh even inp out len m st r. unfold be_transform_bc1_auto_with_normalization.
  destruct (negb (alloc_ok v len)); [intros H; exact H|]. cbv zeta.
  destruct (max_compressed_size e st (len / 2)) as [[z|e1] st1]; [|intros H; exact H].
  destruct (_ && _); [intros H; exact H|].
  destruct (bc1_normalize_blocks_all_modes _ _ _ _ _) as [[[] m1]|w|w]; [| |intros H; discriminate H..]; cbn [bind]; [|intros H; exact H].
  destruct (for_dsts _ _ _ _) as [m2|w|w]; [|intros H; discriminate H..]. cbn [bind].
  destruct (negb _); [intros H; exact H|].
  destruct (be_test_norms _ _ _ _ _ _ _ _ _) as [s|w|w]; [|intros H; discriminate H..]. cbn [bind].
  destruct (be_transform_bc1_with_normalize_blocks c even _ _ _ _ _ _) as [m3|w|w] eqn:E; [|intros H; discriminate H..].
  apply be_norm_odd_ok in E. rewrite E. intros H. exact H.
Qed.
Lemma be_lC51_odd : forall c m inp out work len d, cpu_ok c -> len mod 8 = 0 ->
  within m inp len -> within m out len -> within m work (len / 2) ->
  inp + len <= out \/ out + len <= inp -> inp + len <= work \/ work + len / 2 <= inp -> work + len / 2 <= out \/ out + len <= work ->
  (d_split d = true -> (c_debug c = true -> 0 < len / 8)) -> 0 < len -> d_decorr d <> VNone ->
  exists why, be_transform_bc1_with_normalize_blocks c false inp out work len d m = Ub why.
Proof.
  intros c m inp out work len d K M WI WO WW A1 A2 A3 SL P N.
  destruct (be_with_normalize_ok c m inp out work len d K M WI WO WW) as (m' & E & _); try (apply apartb_iff; assumption); try exact SL.
  apply (be_norm_odd_ub _ _ _ _ _ _ _ _ E). unfold reads_colours. destruct (d_decorr d); first [destruct (N eq_refl) | apply Z.ltb_lt; lia].
Qed.
Lemma be_lC52_odd : forall (St Er : Type) c v (e : estimator St Er) all fresh m inp out len st d m' st', cpu_ok c -> len mod 8 = 0 ->
  within m inp len -> 0 < len -> normalisable (slice m inp len) ->
  be_transform_bc1_auto_with_normalization c v e all fresh true inp out len m st = Ok (ROk d, m', st') -> d_decorr d <> VNone ->
  exists why, be_transform_bc1_auto_with_normalization c v e all fresh false inp out len m st = Ub why.
Proof.
  intros St Er c v e all fresh m inp out len st d m' st' K M WI P N.
  destruct (all_modes_at c fresh m inp len WI M) as (any & m1 & y0 & y1 & y2 & E1 & _ & _ & _ & _ & _ & _ & _ & _ & AN). cbv zeta in E1.
  apply AN in N. subst any. unfold be_transform_bc1_auto_with_normalization.
  destruct (negb (alloc_ok v len)); [intros H; discriminate H|]. cbv zeta.
  destruct (max_compressed_size e st (len / 2)) as [[z|e1] st1]; [|intros H; discriminate H].
  destruct (_ && _); [intros H; discriminate H|]. rewrite E1. cbn [bind].
  destruct (for_dsts _ _ _ _) as [m2|w|w]; [|intros H; discriminate H..]. cbn [bind].
  destruct (negb _); [intros H; discriminate H|].
  destruct (be_test_norms _ _ _ _ _ _ _ _ _) as [s|w|w]; [|intros H; discriminate H..]. cbn [bind].
  destruct (be_transform_bc1_with_normalize_blocks c true _ _ _ _ _ _) as [m3|w|w] eqn:E; [|intros H; discriminate H..].
  cbn [bind]. intros H NV. injection H as Ed _ _. rewrite <- Ed in NV.
  destruct (be_norm_odd_ub _ _ _ _ _ _ _ _ E) as [why U].
  { unfold reads_colours. destruct (d_decorr (best s)); first [destruct (NV eq_refl) | apply Z.ltb_lt; lia]. }
  exists why. rewrite U. reflexivity.
Qed.

Lemma be_lC52_total : forall (St Er : Type) c v (e : estimator St Er) all fresh even m inp out len st, cpu_ok c -> len mod 8 = 0 ->
  within m inp len -> within m out len -> inp + len <= out \/ out + len <= inp ->
  (normalisable (slice m inp len) -> even = true /\ (c_debug c = true -> 0 < len / 8)) ->
  exists r m' st', be_transform_bc1_auto_with_normalization c v e all fresh even inp out len m st = Ok (r, m', st') /\
    only_changes [(out, len)] m m' /\
    match r with
    | ROk d => candidate all (d_decorr d) /\ exists y, blockwise 8 (bc1_normal (d_norm d)) (slice m inp len) y /\
        blockwise 8 (fun b b' => picture bc1_pixel b' = picture bc1_pixel b) (slice m inp len) y /\
        slice m' out len = be_bc1_layout (d_decorr d) (d_split d) y
    | RErr AllocateError => exists n, alloc_ok v n = false
    | RErr (SizeEstimationError e1) => (exists st1 st2, max_compressed_size e st1 (len / 2) = (RErr e1, st2)) \/
        (exists st1 d n st2, estimate_compressed_size e st1 d n = (RErr e1, st2))
    end.
Proof.
  intros St Er c v e all fresh even m inp out len st K M WI WO A SL. apply apartb_iff in A.
  assert (Hx : zlen (slice m inp len) = len) by (destruct WI as [? [? ?]]; apply zlen_slice; lia).
  destruct (norm_dec (slice m inp len) ltac:(lia)) as [N|N].
  - destruct (SL N) as [-> _]. destruct (be_auto_some c v e all fresh m inp out len st K M WI WO A N (proj2 (SL N))) as (y0 & y1 & y2 & B0 & B1 & B2 & R).
    destruct R as [(st1 & n & R & AL)|[(e1 & st1 & MX & R)|(scratch & st1 & d & bs & st2 & m' & MX & TR & R & OC & S)]].
    + do 3 eexists. split; [exact R|]. split; [apply oc_refl|]. exists n. exact AL.
    + do 3 eexists. split; [exact R|]. split; [apply oc_refl|]. left. eauto.
    + do 3 eexists. split; [exact R|]. split; [exact OC|]. split.
      * apply be_tries_in in TR. destruct TR as [->|[y I]]; [right; right; reflexivity|]. apply cands_in in I. destruct I as [_ I]. apply order1_in in I. exact I.
      * destruct (normalised_picture (d_norm d) (slice m inp len) ltac:(lia)) as [B P]. eexists. split; [exact B|]. split; [exact P|exact S].
  - destruct (be_auto_none c v e all fresh even m inp out len st K M WI WO A N) as (m' & OC & R).
    destruct (alloc_ok v len) eqn:AL; cbn [negb] in R.
    2:{ do 3 eexists. split; [exact R|]. split; [exact OC|]. eauto. }
    destruct (max_compressed_size e st (len / 2)) as [[n|e1] st1] eqn:MX.
    2:{ do 3 eexists. split; [exact R|]. split; [exact OC|]. left. eauto. }
    assert (AF : forall n, negb (n =? 0) && negb (alloc_ok v n) = true -> alloc_ok v n = false) by (intros k Hk; destruct (alloc_ok v k); [destruct (k =? 0); discriminate Hk|reflexivity]).
    destruct (negb (n =? 0) && negb (alloc_ok v n)) eqn:A1.
    { do 3 eexists. split; [exact R|]. split; [exact OC|]. eauto. }
    destruct (max_compressed_size e st1 (len / 2)) as [[n2|e1] st2] eqn:MX2.
    2:{ do 3 eexists. split; [exact R|]. split; [exact OC|]. left. eauto. }
    destruct (negb (n2 =? 0) && negb (alloc_ok v n2)) eqn:A2.
    { do 3 eexists. split; [exact R|]. split; [exact OC|]. eauto. }
    destruct (srch e (be_bc1_shown (slice m inp len)) n2 (order1 all) default_settings (usize_max v) st2) as [[s|e1] st3] eqn:SR.
    + destruct R as [R S]. do 3 eexists. split; [exact R|]. split; [exact OC|]. cbn [details_of_settings d_norm d_decorr d_split]. split.
      * apply srch_in in SR. destruct SR as [->|I]; [right; right; reflexivity|]. apply order1_in in I. exact I.
      * exists (slice m inp len). destruct (normalised_picture CNone (slice m inp len) ltac:(lia)) as [B P].
        pose proof (zlen_nonneg _ (slice m inp len)). rewrite (normalised_none (Z.to_nat (len / 8)) (slice m inp len)) in B, P by lia. split; [exact B|]. split; [exact P|exact S].
    + do 3 eexists. split; [exact R|]. split; [exact OC|]. right. apply srch_err in SR. destruct SR as (s1 & d & s2 & E). eauto.
Qed.

Lemma be_lC52_best : forall (Er : Type) c v (mx : Z -> result Z Er) size all fresh even m inp out len d m', cpu_ok c -> len mod 8 = 0 ->
  within m inp len -> within m out len -> inp + len <= out \/ out + len <= inp ->
  normalisable (slice m inp len) -> (c_debug c = true -> 0 < len / 8) ->
  be_transform_bc1_auto_with_normalization c v (pure mx size) all fresh even inp out len m tt = Ok (ROk d, m', tt) ->
  exists scratch, mx (len / 2) = ROk scratch /\
  forall d' y' z', candidate all (d_decorr d') -> blockwise 8 (measured (d_norm d')) (slice m inp len) y' ->
    total_size (fun b => size b scratch) (be_bc1_shown y' (untransform_settings d')) = ROk z' -> z' < usize_max v ->
    exists y z, blockwise 8 (measured (d_norm d)) (slice m inp len) y /\
      total_size (fun b => size b scratch) (be_bc1_shown y (untransform_settings d)) = ROk z /\ z <= z'.
Proof.
  intros Er c v mx size all fresh even m inp out len d m' K M WI WO A N SL RUN. apply apartb_iff in A. apply be_auto_even in RUN.
  assert (Hx : zlen (slice m inp len) = len) by (destruct WI as [? [? ?]]; apply zlen_slice; lia).
  destruct (be_auto_some c v (pure mx size) all fresh m inp out len tt K M WI WO A N SL) as (y0 & y1 & y2 & B0 & B1 & B2 & R).
  destruct R as [(st1 & n & R & _)|[(e1 & st1 & _ & R)|(scratch & st1 & d1 & bs & st2 & m1 & MX & TR & R & _ & _)]];
    rewrite RUN in R; [discriminate R|discriminate R|]. injection R as <- _ _.
  unfold pure in MX. cbn [max_compressed_size] in MX. injection MX as MX <-. exists scratch. split; [exact MX|].
  apply be_tries_pure in TR. destruct TR as (T1 & T2 & T3). intros d' y' z' CA BY TZ LT.
  assert (TS : forall b r, total_size (fun b => size b scratch) [b] = r -> r = match size b scratch with ROk a => ROk a | RErr e => RErr e end).
  { intros b r <-. cbn [total_size]. destruct (size b scratch); [rewrite Z.add_0_r|]; reflexivity. }
  assert (IN : forall mode y, blockwise 8 (measured mode) (slice m inp len) y -> In (mode, y) (combine all_color_norms [y0; y1; y2])).
  { intros mode y B. assert (U : forall z, blockwise 8 (measured mode) (slice m inp len) z -> z = y) by (intros z BZ; apply (measured_functional mode (slice m inp len)); [lia|assumption..]).
    destruct mode; cbn [all_color_norms combine In]; [left; rewrite <- (U _ B0)|right; left; rewrite <- (U _ B1)|right; right; left; rewrite <- (U _ B2)]; reflexivity. }
  assert (ES : size (be_colour_part (d_decorr d') (d_split d') y') scratch = ROk z').
  { unfold be_bc1_shown in TZ. apply TS in TZ. unfold be_colour_part. cbn [untransform_settings decorrelation_mode split_colour_endpoints] in TZ.
    destruct (size _ scratch); [symmetry; exact TZ|discriminate TZ]. }
  assert (LE : bs <= z').
  { apply (T3 d' y' z'); [|exact ES]. apply cands_in. split; [apply IN; exact BY|]. apply order1_in. exact CA. }
  destruct T2 as [[_ T2]|[y [I T2]]]; [lia|]. apply cands_in in I. destruct I as [I _].
  exists y, bs. split; [|split; [|exact LE]].
  - cbn [all_color_norms combine In] in I. destruct I as [I|[I|[I|[]]]]; injection I as <- <-; assumption.
  - unfold be_bc1_shown. cbn [untransform_settings decorrelation_mode split_colour_endpoints total_size]. unfold be_colour_part in T2. rewrite T2. rewrite Z.add_0_r. reflexivity.
Qed.

Lemma be_lC52_plain : forall (Er : Type) c v (mx : Z -> result Z Er) size all fresh even m inp out len r y, cpu_ok c -> len mod 8 = 0 ->
  within m inp len -> within m out len -> inp + len <= out \/ out + len <= inp ->
  ~ normalisable (slice m inp len) -> alloc_ok v len = true ->
  be_transform_bc1_auto c v (pure mx size) all (slice m inp len) (slice m out len) tt = Ok (r, y, tt) ->
  match r with
  | ROk s => exists m', be_transform_bc1_auto_with_normalization c v (pure mx size) all fresh even inp out len m tt = Ok (ROk (details_of_settings s), m', tt) /\ slice m' out len = y
  | RErr (DetermineBestTransform err) => exists m', be_transform_bc1_auto_with_normalization c v (pure mx size) all fresh even inp out len m tt = Ok (RErr err, m', tt)
  | RErr _ => False
  end.
Proof.
  intros Er c v mx size all fresh even m inp out len r y K M WI WO A N AL RUN. apply apartb_iff in A.
  assert (Hx : zlen (slice m inp len) = len) by (destruct WI as [? [? ?]]; apply zlen_slice; lia).
  assert (Ho : zlen (slice m out len) = len) by (destruct WO as [? [? ?]]; apply zlen_slice; lia).
  destruct (be_auto_none c v (pure mx size) all fresh even m inp out len tt K M WI WO A N) as (m' & OC & R).
  destruct (be_bc1_AUTO c v (pure mx size) all (slice m inp len) (slice m out len) K ltac:(lia) ltac:(lia) tt) as (y' & Q).
  rewrite Hx in Q. rewrite AL in R. cbn [negb] in R.
  change (max_compressed_size (pure mx size) tt (len / 2)) with (mx (len / 2), tt) in R, Q.
  destruct (mx (len / 2)) as [n|e1] eqn:MX; cbv beta iota in R, Q.
  2:{ destruct Q as [Q _]. rewrite RUN in Q. injection Q as -> _. eauto. }
  destruct (negb (n =? 0) && negb (alloc_ok v n)) eqn:AC.
  { destruct Q as [Q _]. rewrite RUN in Q. injection Q as -> _. eauto. }
  change (max_compressed_size (pure mx size) tt (len / 2)) with (mx (len / 2), tt) in R. rewrite MX in R. cbv beta iota in R. rewrite AC in R.
  destruct (srch (pure mx size) (be_bc1_shown (slice m inp len)) n (order1 all) default_settings (usize_max v) tt) as [[s|e1] []].
  - destruct Q as [Q QY]. rewrite RUN in Q. injection Q as -> ->. destruct R as [R S]. exists m'. split; [exact R|]. rewrite S, QY.
    rewrite skipn_all2 by (unfold zlen in *; lia). rewrite app_nil_r. reflexivity.
  - destruct Q as [Q _]. rewrite RUN in Q. injection Q as -> _. eauto.
Qed.

Lemma be_lC52_none_refuted : exists (c : cfg) (v : env) (mx : Z -> result Z unit) (size : list byte -> Z -> result Z unit)
    (m : list byte) (inp out work len : Z) (d d' : details) (m' m1 : list byte) (scratch z z' : Z),
  cpu_ok c /\ (c_debug c = true -> 0 < len / 8) /\ len mod 8 = 0 /\ within m inp len /\ within m out len /\ within m work (len / 2) /\
  inp + len <= out /\ out + len <= work /\ mx (len / 2) = ROk scratch /\
  be_transform_bc1_auto_with_normalization c v (pure mx size) false (fun _ => x00) true inp out len m tt = Ok (ROk d, m', tt) /\
  candidate false (d_decorr d') /\ be_transform_bc1_with_normalize_blocks c true inp out work len d' m = Ok m1 /\
  size (slice m' out (len / 2)) scratch = ROk z /\ size (slice m1 out (len / 2)) scratch = ROk z' /\ z' < z.
Proof.
  exists (Cfg true OtherArch false false false false false false false false x00), (Env (2 ^ 64 - 1) (fun _ => true)), (fun _ => ROk 0),
    (fun d _ => ROk (fold_right Z.add 0 (map (fun b => 255 - b2z b) d))),
    ([x00; x00; x01; x00; xff; xff; xff; xff] ++ repeat x00 12), 0, 8, 16, 8, (Details CNone VNone false), (Details Color0Only VNone false).
  do 5 eexists. split; [constructor; intros; reflexivity || discriminate|].
  split; [intros _; reflexivity|]. split; [reflexivity|].
  split; [unfold within; cbn; lia|]. split; [unfold within; cbn; lia|]. split; [unfold within; cbn; lia|]. split; [lia|]. split; [lia|].
  split; [reflexivity|]. split; [vm_compute; reflexivity|]. split; [right; left; reflexivity|]. split; [vm_compute; reflexivity|].
  split; [vm_compute; reflexivity|]. split; [vm_compute; reflexivity|]. vm_compute. reflexivity.
Qed.

