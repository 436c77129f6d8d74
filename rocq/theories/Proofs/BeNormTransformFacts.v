(** Proofs/NormTransformFacts.v for a big-endian machine (generated by tools/gen_be_norm.py). *)
From Verif Require Import Base.Bytes Base.Res Model.Color565 Model.Ycc Model.Kernel Model.GenBeBc1Std Model.GenBeSplit565
  Model.ColorSlices Model.Transform Model.Auto Model.Decode Model.Normalize Model.NormTransform Model.BeTransform Model.BeFiles Model.BeNormTransform
  Spec.YCoCg Spec.Layout Spec.BigEndian Spec.Pixels Spec.Normalize Spec.Estimator Spec.NormTransform Spec.BeFiles
  Proofs.KernelCheck Proofs.KernelLoop Proofs.KernelFun Proofs.Shapes Proofs.LayoutFacts Proofs.ShapeLayout Proofs.KBc1ScrU Proofs.KBeBc1Std
  Proofs.Families Proofs.BeFamilies Proofs.TransformFacts Proofs.SliceFacts Proofs.BeTransformFacts Proofs.BeSliceFacts Proofs.BigEndianFacts Proofs.ColorSlicesFacts
  Proofs.AutoFacts Proofs.AutoProps Proofs.AutoTheorems Proofs.BeAutoProps
  Proofs.NormLoop Proofs.NormPixels Proofs.NormalizeFacts Proofs.NormSplit Proofs.NormDerived Proofs.NormTransformFacts Proofs.NormAuto Proofs.NormAutoTheorems.
From Coq Require Import ZifyBool ZifyNat.

Lemma u16be_bound : forall a b, 0 <= u16be a b < 65536.
Proof. intros a b. unfold u16be. pose proof (b2z_bound a). pose proof (b2z_bound b). lia. Qed.
Lemma hi8_u16be : forall a b, hi8 (u16be a b) = a.
Proof. intros a b. replace (u16be a b) with (u16le b a) by (unfold u16be, u16le; lia). apply hi8_u16le. Qed.
Lemma lo8_u16be : forall a b, lo8 (u16be a b) = b.
Proof. intros a b. replace (u16be a b) with (u16le b a) by (unfold u16be, u16le; lia). apply lo8_u16le. Qed.

Lemma be_separate_ok : forall c m inp c0 i0 n, cpu_ok c -> within m inp (8 * Z.of_nat n) -> within m c0 (4 * Z.of_nat n) -> within m i0 (4 * Z.of_nat n) ->
  apartb inp (8 * Z.of_nat n) c0 (4 * Z.of_nat n) = true -> apartb inp (8 * Z.of_nat n) i0 (4 * Z.of_nat n) = true ->
  apartb c0 (4 * Z.of_nat n) i0 (4 * Z.of_nat n) = true ->
  be_transform_separate_at c inp c0 i0 (8 * Z.of_nat n) m =
  Ok (splice (splice m c0 (sec 0 (slice m inp (8 * Z.of_nat n)))) i0 (sec 4 (slice m inp (8 * Z.of_nat n)))).
Proof.
  intros c m inp c0 i0 n K [I1 [I2 I3]] [C1 [C2 C3]] [X1 [X2 X3]] A1 A2 A3. unfold be_transform_separate_at.
  replace (8 * Z.of_nat n / 2) with (4 * Z.of_nat n) by lia. rewrite A1, A2, A3. cbn [andb]. unfold kernel_at.
  pose (C := Conf sh_bc1_std_t [Ptr BIn inp] [Ptr BOut c0; Ptr BOut i0]).
  assert (S0 : stride sh_bc1_std_t (PI 0) = 8) by reflexivity. assert (S1 : stride sh_bc1_std_t (PO 0) = 4) by reflexivity.
  assert (S2 : stride sh_bc1_std_t (PO 1) = 4) by reflexivity.
  assert (W : WF C (Mem m [] m) (Z.of_nat n)).
  { constructor; cbn [cf_sh cf_ins cf_outs C]; try reflexivity; try lia.
    - intros k Hk. destruct k as [|k]; [|cbn in Hk; lia]. rewrite S0. cbn [base cf_ins C nth p_buf p_off buf_of m_in]. split; [discriminate|]. lia.
    - intros j Hj. destruct j as [|[|j]]; [| |cbn in Hj; lia]; rewrite ?S1, ?S2; cbn [base cf_outs C nth p_buf p_off m_out]; (split; [reflexivity|]); lia.
    - unfold apartb in A3. intros j j' Hj Hj' NE. destruct j as [|[|j]]; [| |cbn in Hj; lia]; (destruct j' as [|[|j']]; [| |cbn in Hj'; lia]);
        rewrite ?S1, ?S2; cbn [base cf_outs C nth p_off]; lia. }
  destruct (be_bc1_std_t_transform_with_separate_pointers_ok c [Ptr BIn inp] [Ptr BOut c0; Ptr BOut i0] (Mem m [] m) (Z.of_nat n) 0 (Z.of_nat n) (Mem m [] m)
    K eq_refl I W ltac:(lia) ltac:(lia) ltac:(lia) (INV_0 _ _ _ _ _)) as (m' & X & V).
  cbv beta in X. unfold padd in X. cbn [base cf_ins cf_outs nth p_buf p_off] in X. rewrite !Z.mul_0_l, !Z.add_0_r in X.
  rewrite X. cbn [bind]. f_equal.
  destruct m' as [mi ma mo]. cbn [m_out].
  pose proof (inv_len _ _ _ _ _ _ _ V) as HL. pose proof (inv_done _ _ _ _ _ _ _ V) as HD. pose proof (inv_frame _ _ _ _ _ _ _ V) as HF.
  cbn [m_out m_in] in *. fold C in HD, HF.
  assert (LX : zlen (slice m inp (8 * Z.of_nat n)) = 8 * Z.of_nat n) by (apply zlen_slice; lia).
  assert (P : forall j off p, (j = 0%nat /\ off = 0%nat /\ p = c0) \/ (j = 1%nat /\ off = 4%nat /\ p = i0) ->
    slice mo p (4 * Z.of_nat n) = sec off (slice m inp (8 * Z.of_nat n))).
  { intros j off p J. unfold sec. apply by_blocks; try lia.
    intros k Hk. rewrite slice_slice by lia. rewrite raw_slice.
    rewrite slice_slice by lia. apply slice_ext; try lia.
    intros t Ht.
    assert (T : t = 0 \/ t = 1 \/ t = 2 \/ t = 3) by lia.
    destruct J as [[-> [-> ->]]|[-> [-> ->]]].
    - specialize (HD 0%nat k t ltac:(cbn; lia) ltac:(lia)). cbn [cf_sh C] in HD. rewrite S1 in HD. specialize (HD Ht).
      unfold at_blk in HD. cbn [cf_sh cf_outs C base nth padd p_off] in HD. rewrite S1 in HD.
      replace (c0 + 4 * k + t) with (c0 + k * 4 + t) by lia. rewrite HD. clear HD.
      destruct T as [->|[->|[->| ->]]]; match goal with |- _ = znth _ (_ + ?t) => match goal with |- ?l = _ => change l with (znth m (inp + k * 8 + (0 + t))) end end; f_equal; lia.
    - specialize (HD 1%nat k t ltac:(cbn; lia) ltac:(lia)). cbn [cf_sh C] in HD. rewrite S2 in HD. specialize (HD Ht).
      unfold at_blk in HD. cbn [cf_sh cf_outs C base nth padd p_off] in HD. rewrite S2 in HD.
      replace (i0 + 4 * k + t) with (i0 + k * 4 + t) by lia. rewrite HD. clear HD.
      destruct T as [->|[->|[->| ->]]]; match goal with |- _ = znth _ (_ + ?t) => match goal with |- ?l = _ => change l with (znth m (inp + k * 8 + (4 + t))) end end; f_equal; lia. }
  rewrite <- (P 0%nat 0%nat c0) by auto. rewrite <- (P 1%nat 4%nat i0) by auto.
  apply only_changes2; try lia; [unfold apartb in A3; lia|].
  split; [exact HL|]. intros i Hi NI. apply HF; [exact Hi|].
  intros j Hj. cbn in Hj. destruct j as [|[|j]]; [| |lia]; cbn [cf_sh C]; rewrite ?S1, ?S2; cbn [base cf_outs C nth p_off].
  - specialize (NI c0 (4 * Z.of_nat n) ltac:(left; reflexivity)). lia.
  - specialize (NI i0 (4 * Z.of_nat n) ltac:(right; left; reflexivity)). lia.
Qed.

Lemma be_transform_at_ok : forall c m inp out len, cpu_ok c -> len mod 8 = 0 -> within m inp len -> within m out len -> apartb inp len out len = true ->
  be_transform_at c inp out len m = Ok (splice m out (be_bc1_layout VNone false (slice m inp len))).
Proof.
  intros c m inp out len K M [I1 [I2 I3]] [O1 [O2 O3]] A. unfold be_transform_at, kernel_at. rewrite A.
  pose proof (be_bc1_call c (Settings VNone false) m [] m inp out len K M I2 I1 O1 I3 O3) as X.
  unfold be_transform_bc1_with_settings in X. cbn [split_colour_endpoints decorrelation_mode variant_eqb] in X.
  replace (len mod 8 =? 0) with true in X by lia. rewrite debug_assert_t in X. cbn [bind] in X. rewrite X. reflexivity.
Qed.

Definition be_decor (v : variant) (l : list byte) : list byte := be_of_colours (map (decorrelate v) (be_to_colours l)).

Lemma be_to_colours_len : forall n l, zlen l = 2 * Z.of_nat n -> List.length (be_to_colours l) = n.
Proof.
  induction n as [|n IH]; intros l H.
  - destruct l; [reflexivity|unfold zlen in H; cbn [List.length] in H; lia].
  - destruct l as [|a [|b l]]; [unfold zlen in H; cbn [List.length] in H; lia..|]. cbn [be_to_colours List.length]. f_equal. apply IH.
    unfold zlen in *. cbn [List.length] in H. lia.
Qed.
Lemma be_of_colours_len : forall cs, zlen (be_of_colours cs) = 2 * zlen cs.
Proof. induction cs as [|x cs IH]; [reflexivity|]. unfold be_of_colours in *. cbn [flat_map]. rewrite zlen_app, IH. unfold zlen. cbn [List.length]. lia. Qed.
Lemma be_decor_len : forall v n l, zlen l = 2 * Z.of_nat n -> zlen (be_decor v l) = 2 * Z.of_nat n.
Proof. intros v n l H. unfold be_decor. rewrite be_of_colours_len. unfold zlen. rewrite map_length, (be_to_colours_len n l H). lia. Qed.
Lemma be_decor_app : forall v n a b, zlen a = 2 * Z.of_nat n -> be_decor v (a ++ b) = be_decor v a ++ be_decor v b.
Proof.
  intros v n a b H. revert b. refine (even_ind (fun a => forall b, be_decor v (a ++ b) = be_decor v a ++ be_decor v b) _ _ n a H).
  - reflexivity.
  - intros x y l IH b. unfold be_decor, be_of_colours in *. cbn [app be_to_colours map flat_map]. rewrite IH. reflexivity.
Qed.

Lemma be_colour_decor : forall v a b, [hi8 (decorrelate v (u16be a b)); lo8 (decorrelate v (u16be a b))] = be_decor v [a; b].
Proof. reflexivity. Qed.
Lemma be_decor_one : forall v (f g : field) bs,
  (forall b, In b bs -> exists n, zlen (f b) = 2 * Z.of_nat n) -> (forall b, In b bs -> be_decor v (f b) = g b) ->
  be_decor v (List.concat (map f bs)) = List.concat (map g bs).
Proof.
  intros v f g bs. induction bs as [|b bs IH]; intros L H; [reflexivity|]. cbn [map List.concat].
  destruct (L b (or_introl eq_refl)) as [n Hn]. rewrite (be_decor_app v n) by exact Hn. rewrite H by (left; reflexivity). f_equal.
  apply IH; intros; [apply L|apply H]; right; assumption.
Qed.
Lemma be_decor_two : forall v off bs, (forall b, In b bs -> List.length b = 8%nat) -> (off = 0 \/ off = 2)%nat ->
  be_decor v (List.concat (map (raw off 2) bs)) = List.concat (map (be_colour v off) bs).
Proof.
  intros v off bs L Ho. apply be_decor_one; intros b Hb; specialize (L b Hb); list_len b L.
  - exists 1%nat. destruct Ho as [->| ->]; reflexivity.
  - unfold be_colour. rewrite <- ycocg_decorrelate by apply u16be_bound. destruct Ho as [->| ->]; reflexivity.
Qed.
Lemma be_decor_four : forall v bs, (forall b, In b bs -> List.length b = 8%nat) ->
  be_decor v (List.concat (map (raw 0 4) bs)) = List.concat (map (both (be_colour v 0) (be_colour v 2)) bs).
Proof.
  intros v bs L. apply be_decor_one; intros b Hb; specialize (L b Hb); list_len b L.
  - exists 2%nat. reflexivity.
  - unfold both, be_colour. rewrite <- !ycocg_decorrelate by apply u16be_bound. reflexivity.
Qed.

(** The be_colour part of the layout, from the standard transform's be_colour section. *)
Definition be_colour_part (v : variant) (sp : bool) (y : list byte) : list byte := lay (be_colour_fields v sp 0) (blocks 8 y).
Lemma be_colour_part_plain : forall v y, be_decor v (sec 0 y) = be_colour_part v false y.
Proof. intros v y. unfold sec, be_colour_part, lay. cbn [be_colour_fields map List.concat]. rewrite app_nil_r. apply be_decor_four. apply blocks_of_len. Qed.
Lemma be_colour_part_split : forall v y, be_decor v (lay [raw 0 2; raw 2 2] (blocks 4 (sec 0 y))) = be_colour_part v true y.
Proof.
  intros v y. unfold sec. rewrite map_blocks4.
  2:{ intros b Hb. apply in_map_iff in Hb. destruct Hb as (q & <- & Hq). apply blocks_of_len in Hq. list_len q Hq. reflexivity. }
  unfold lay, be_colour_part, lay. cbn [be_colour_fields map List.concat]. rewrite !app_nil_r, !map_map.
  assert (E0 : map (fun x => raw 0 2 (raw 0 4 x)) (blocks 8 y) = map (raw 0 2) (blocks 8 y)).
  { apply map_ext_in. intros q Hq. apply blocks_of_len in Hq. list_len q Hq. reflexivity. }
  assert (E2 : map (fun x => raw 2 2 (raw 0 4 x)) (blocks 8 y) = map (raw 2 2) (blocks 8 y)).
  { apply map_ext_in. intros q Hq. apply blocks_of_len in Hq. list_len q Hq. reflexivity. }
  rewrite E0, E2. rewrite (be_decor_app v (List.length (blocks 8 y))).
  - change (0 + 2)%nat with 2%nat. rewrite !be_decor_two by (apply blocks_of_len || lia). reflexivity.
  - unfold zlen. rewrite (length_concat_const 2); [rewrite map_length; lia|]. intros b Hb. apply in_map_iff in Hb. destruct Hb as (q & <- & Hq).
    apply blocks_of_len in Hq. list_len q Hq. reflexivity.
Qed.
Lemma be_layout_parts : forall v sp y, be_bc1_layout v sp y = be_colour_part v sp y ++ sec 4 y.
Proof.
  intros v sp y. unfold be_bc1_layout, be_bc1_fields, be_colour_part, sec, lay. rewrite map_app, concat_app. cbn [map List.concat]. rewrite app_nil_r. reflexivity.
Qed.

Lemma be_decorrelate_at_ok : forall m p n v, within m p (2 * Z.of_nat n) ->
  be_decorrelate_at true p (Z.of_nat n) v m = Ok (splice m p (be_decor v (slice m p (2 * Z.of_nat n)))).
Proof.
  intros m p n v [H1 [H2 H3]]. unfold be_decorrelate_at. cbn [negb andb]. rewrite load_ok by lia. cbn [bind].
  set (d := slice m p (2 * Z.of_nat n)). assert (Ld : zlen d = 2 * Z.of_nat n) by (apply zlen_slice; lia).
  pose proof (be_to_colours_len n d Ld) as LC. assert (ZC : zlen (be_to_colours d) = Z.of_nat n) by (unfold zlen; lia).
  rewrite decorrelate_ptr_ok by (first [lia | left; reflexivity]). cbn [bind].
  assert (E : splice (be_to_colours d) 0 (map (decorrelate v) (slice (be_to_colours d) 0 (Z.of_nat n))) = map (decorrelate v) (be_to_colours d)).
  { rewrite <- ZC, slice_all. rewrite splice_at_0, map_length, skipn_all, app_nil_r. reflexivity. }
  rewrite E. fold (be_decor v d). rewrite store_ok; [reflexivity|lia|]. rewrite (be_decor_len v n d Ld). lia.
Qed.
Lemma be_decorrelate_slice_at_ok : forall debug m src dst n v, within m src (2 * Z.of_nat n) -> within m dst (2 * Z.of_nat n) ->
  apartb src (2 * Z.of_nat n) dst (2 * Z.of_nat n) = true ->
  be_decorrelate_slice_at debug src dst (Z.of_nat n) v m = Ok (splice m dst (be_decor v (slice m src (2 * Z.of_nat n)))).
Proof.
  intros debug m src dst n v [H1 [H2 H3]] [D1 [D2 D3]] A. unfold be_decorrelate_slice_at. rewrite A. rewrite !load_ok by lia. cbn [bind].
  set (s := slice m src (2 * Z.of_nat n)). assert (Ls : zlen s = 2 * Z.of_nat n) by (apply zlen_slice; lia).
  set (d := slice m dst (2 * Z.of_nat n)). assert (Ld : zlen d = 2 * Z.of_nat n) by (apply zlen_slice; lia).
  pose proof (be_to_colours_len n d Ld) as LD. pose proof (be_to_colours_len n s Ls) as LS.
  rewrite decorrelate_slice_ok by (unfold zlen; lia). cbn [bind]. rewrite LS, <- LD, skipn_all, app_nil_r.
  fold (be_decor v s). rewrite store_ok; [reflexivity|lia|]. rewrite (be_decor_len v n s Ls). lia.
Qed.
Lemma be_split_at_ok : forall c m src dst n, cpu_ok c -> (c_debug c = true -> 0 < Z.of_nat n) -> within m src (4 * Z.of_nat n) -> within m dst (4 * Z.of_nat n) ->
  apartb src (4 * Z.of_nat n) dst (4 * Z.of_nat n) = true ->
  be_split_at c src dst (4 * Z.of_nat n) m = Ok (splice m dst (lay [raw 0 2; raw 2 2] (blocks 4 (slice m src (4 * Z.of_nat n))))).
Proof.
  intros c m src dst n K P [H1 [H2 H3]] [D1 [D2 D3]] A. unfold be_split_at, kernel_at. rewrite A.
  rewrite be_split_run by (assumption || lia). reflexivity.
Qed.

Lemma be_tail_plain : forall m out n v y, zlen y = 8 * Z.of_nat n -> within m out (8 * Z.of_nat n) ->
  slice m out (4 * Z.of_nat n) = sec 0 y -> slice m (out + 4 * Z.of_nat n) (4 * Z.of_nat n) = sec 4 y ->
  exists m', be_decorrelate_at true out (2 * Z.of_nat n) v m = Ok m' /\ only_changes [(out, 8 * Z.of_nat n)] m m' /\
    slice m' out (8 * Z.of_nat n) = be_bc1_layout v false y.
Proof.
  intros m out n v y Hy [O1 [O2 O3]] E0 E4.
  pose proof (be_decorrelate_at_ok m out (2 * n) v) as D.
  replace (Z.of_nat (2 * n)) with (2 * Z.of_nat n) in D by lia. replace (2 * (2 * Z.of_nat n)) with (4 * Z.of_nat n) in D by lia.
  rewrite D by (unfold within; lia). clear D. rewrite E0, be_colour_part_plain.
  assert (LC : zlen (be_colour_part v false y) = 4 * Z.of_nat n).
  { rewrite <- be_colour_part_plain. pose proof (be_decor_len v (2 * n) (sec 0 y)) as Q. rewrite (sec_len 0 y n) in Q by (lia || exact Hy). lia. }
  eexists. split; [reflexivity|]. split.
  - apply oc_splice with (q := out) (len := 8 * Z.of_nat n); try lia. left. reflexivity.
  - rewrite be_layout_parts. replace (8 * Z.of_nat n) with (4 * Z.of_nat n + 4 * Z.of_nat n) by lia. rewrite slice_app_split by lia. f_equal.
    + apply slice_splice_same'; lia.
    + rewrite slice_splice_apart by lia. exact E4.
Qed.
Lemma be_tail_split : forall c m work out n v y, cpu_ok c -> (c_debug c = true -> 0 < Z.of_nat n) -> zlen y = 8 * Z.of_nat n ->
  within m work (4 * Z.of_nat n) -> within m out (8 * Z.of_nat n) -> apartb work (4 * Z.of_nat n) out (8 * Z.of_nat n) = true ->
  slice m work (4 * Z.of_nat n) = sec 0 y -> slice m (out + 4 * Z.of_nat n) (4 * Z.of_nat n) = sec 4 y ->
  exists m', (do m <- be_split_at c work out (4 * Z.of_nat n) m ;; be_decorrelate_at true out (2 * Z.of_nat n) v m) = Ok m' /\
    only_changes [(out, 8 * Z.of_nat n)] m m' /\ slice m' out (8 * Z.of_nat n) = be_bc1_layout v true y.
Proof.
  intros c m work out n v y K P Hy W [O1 [O2 O3]] A E0 E4.
  rewrite be_split_at_ok; try assumption; try (unfold within; lia); [|unfold apartb in *; lia]. cbn [bind]. rewrite E0.
  set (S := lay [raw 0 2; raw 2 2] (blocks 4 (sec 0 y))).
  assert (LS : zlen S = 4 * Z.of_nat n).
  { unfold S, zlen. rewrite (lay_length 4 _ [2; 2]%nat).
    - unfold blocks. rewrite chunks_length. pose proof (sec_len 0 y n ltac:(lia) Hy) as Q. unfold zlen in Q.
      replace (List.length (sec 0 y)) with (n * 4)%nat by lia. rewrite Nat.div_mul by lia. cbn [sum fold_right]. lia.
    - repeat constructor; intros b Hb; list_len b Hb; reflexivity.
    - intros b Hb. unfold blocks in Hb. apply chunks_in in Hb; [exact Hb|]. nia. }
  pose proof (be_decorrelate_at_ok (splice m out S) out (2 * n) v) as D.
  replace (Z.of_nat (2 * n)) with (2 * Z.of_nat n) in D by lia. replace (2 * (2 * Z.of_nat n)) with (4 * Z.of_nat n) in D by lia.
  assert (Z1 : zlen (splice m out S) = zlen m) by (apply zlen_splice; lia).
  rewrite D by (unfold within; lia). clear D. rewrite (slice_splice_same' m out S) by lia. unfold S at 2. rewrite be_colour_part_split.
  assert (LC : zlen (be_colour_part v true y) = 4 * Z.of_nat n).
  { rewrite <- be_colour_part_split. fold S. pose proof (be_decor_len v (2 * n) S) as Q. lia. }
  eexists. split; [reflexivity|]. split.
  - apply oc_trans with (m2 := splice m out S); (apply oc_splice with (q := out) (len := 8 * Z.of_nat n); try lia; left; reflexivity).
  - rewrite be_layout_parts. replace (8 * Z.of_nat n) with (4 * Z.of_nat n + 4 * Z.of_nat n) by lia. rewrite slice_app_split by lia. f_equal.
    + apply slice_splice_same'; lia.
    + rewrite slice_splice_apart by lia. rewrite slice_splice_apart by lia. exact E4.
Qed.

Lemma be_with_normalize_ok : forall c m inp out work len d, cpu_ok c -> len mod 8 = 0 ->
  within m inp len -> within m out len -> within m work (len / 2) ->
  apartb inp len out len = true -> apartb inp len work (len / 2) = true -> apartb work (len / 2) out len = true ->
  (d_split d = true -> (c_debug c = true -> 0 < len / 8)) ->
  exists m', be_transform_bc1_with_normalize_blocks c true inp out work len d m = Ok m' /\ only_changes [(out, len); (work, len / 2)] m m' /\
    slice m' out len = be_bc1_layout (d_decorr d) (d_split d) (normalised (d_norm d) (slice m inp len)).
Proof.
  intros c m inp out work len d K M WI WO WW A1 A2 A3 SL.
  destruct WI as [I1 [I2 I3]]. destruct WO as [O1 [O2 O3]]. destruct WW as [W1 [W2 W3]].
  assert (EN : exists n, len = 8 * Z.of_nat n) by (exists (Z.to_nat (len / 8)); lia). destruct EN as [n ->].
  unfold be_transform_bc1_with_normalize_blocks.
  replace (8 * Z.of_nat n mod 8 =? 0) with true by lia. rewrite debug_assert_t. cbn [bind].
  replace (8 * Z.of_nat n / 2) with (4 * Z.of_nat n) in * by lia. replace (4 * Z.of_nat n / 2) with (2 * Z.of_nat n) by lia.
  replace (8 * Z.of_nat n / 8) with (Z.of_nat n) in * by lia. rewrite Nat2Z.id.
  set (x := slice m inp (8 * Z.of_nat n)). assert (Hx : zlen x = 8 * Z.of_nat n) by (apply zlen_slice; lia).
  set (areas := [(out, 8 * Z.of_nat n); (work, 4 * Z.of_nat n)]).
  unfold apartb in A1, A2, A3.
  assert (OUT : forall m1 m2, only_changes [(out, 8 * Z.of_nat n)] m1 m2 -> only_changes areas m1 m2).
  { intros m1 m2 H. apply (oc_incl _ _ _ _ H). intros p l [I|[]]. pose proof (f_equal fst I) as I1'. pose proof (f_equal snd I) as I2'. cbn [fst snd] in I1', I2'. subst p l. exists out, (8 * Z.of_nat n). split; [left; reflexivity|lia]. }
  assert (INW : exists r k, In (r, k) areas /\ r <= work /\ work + 4 * Z.of_nat n <= r + k) by (exists work, (4 * Z.of_nat n); split; [right; left; reflexivity|lia]).
  assert (INO : forall p, out <= p -> p + 4 * Z.of_nat n <= out + 8 * Z.of_nat n -> exists r k, In (r, k) areas /\ r <= p /\ p + 4 * Z.of_nat n <= r + k)
    by (intros p P1 P2; exists out, (8 * Z.of_nat n); split; [left; reflexivity|lia]).
  assert (L0 : forall y, zlen y = 8 * Z.of_nat n -> zlen (sec 0 y) = 4 * Z.of_nat n) by (intros y Hy; apply sec_len; [lia|exact Hy]).
  assert (L4 : forall y, zlen y = 8 * Z.of_nat n -> zlen (sec 4 y) = 4 * Z.of_nat n) by (intros y Hy; apply sec_len; [lia|exact Hy]).
  assert (LN : zlen (normalised (d_norm d) x) = 8 * Z.of_nat n) by (apply normalised_len; exact Hx).
  assert (SEP : forall sp : bool, be_transform_separate_at c inp work (out + 4 * Z.of_nat n) (8 * Z.of_nat n) m = Ok (splice (splice m work (sec 0 x)) (out + 4 * Z.of_nat n) (sec 4 x))).
  { intros _. apply be_separate_ok; unfold within, apartb; try assumption; try lia. }
  destruct (two_slices m work (sec 0 x) (out + 4 * Z.of_nat n) (sec 4 x) (4 * Z.of_nat n)) as (Z1 & S1 & S2 & C1); try lia; try (apply L0; exact Hx); try (apply L4; exact Hx).
  specialize (C1 areas INW (INO (out + 4 * Z.of_nat n) ltac:(lia) ltac:(lia))). set (m1 := splice (splice m work (sec 0 x)) (out + 4 * Z.of_nat n) (sec 4 x)) in *.
  assert (PLAIN : be_transform_at c inp out (8 * Z.of_nat n) m = Ok (splice (splice m out (sec 0 x)) (out + 4 * Z.of_nat n) (sec 4 x))).
  { rewrite be_transform_at_ok; unfold within, apartb; try assumption; try lia. fold x. f_equal. rewrite be_layout_parts. rewrite <- be_colour_part_plain.
    assert (DN : be_decor VNone (sec 0 x) = sec 0 x).
    { unfold be_decor. rewrite map_ident by reflexivity. revert Hx. clear. intros Hx. pose proof (sec_len 0 x n ltac:(lia) Hx) as L.
      refine (even_ind (fun l => be_of_colours (be_to_colours l) = l) eq_refl _ (2 * n) (sec 0 x) _); [|lia].
      intros a b l IH. unfold be_of_colours in *. cbn [be_to_colours flat_map app]. change (256 * b2z a + b2z b) with (u16be a b). rewrite IH, hi8_u16be, lo8_u16be. reflexivity. }
    rewrite DN. pose proof (L0 x Hx) as L0x. pose proof (L4 x Hx) as L4x. rewrite <- L0x. symmetry. apply NormLoop.splice_splice; lia. }
  destruct (two_slices m out (sec 0 x) (out + 4 * Z.of_nat n) (sec 4 x) (4 * Z.of_nat n)) as (Z1' & S1' & S2' & C1'); try lia; try (apply L0; exact Hx); try (apply L4; exact Hx).
  specialize (C1' areas (INO out ltac:(lia) ltac:(lia)) (INO (out + 4 * Z.of_nat n) ltac:(lia) ltac:(lia))). set (m1' := splice (splice m out (sec 0 x)) (out + 4 * Z.of_nat n) (sec 4 x)) in *.
  destruct d as [mode v sp]. cbn [d_norm d_decorr d_split] in *.
  assert (NORMS : exists m2, bc1_normalize_split_blocks_in_place work (out + 4 * Z.of_nat n) n mode m1 = Ok m2 /\ zlen m2 = zlen m /\ only_changes areas m1 m2 /\
    slice m2 work (4 * Z.of_nat n) = sec 0 (normalised mode x) /\ slice m2 (out + 4 * Z.of_nat n) (4 * Z.of_nat n) = sec 4 (normalised mode x)).
  { rewrite (normalize_ok m1 work (out + 4 * Z.of_nat n) n mode x); unfold within, apartb; try assumption; try lia.
    destruct (two_slices m1 work (sec 0 (normalised mode x)) (out + 4 * Z.of_nat n) (sec 4 (normalised mode x)) (4 * Z.of_nat n)) as (Z2 & T1 & T2 & C2); try lia;
      try (apply L0; exact LN); try (apply L4; exact LN).
    eexists. split; [reflexivity|]. split; [lia|]. split; [apply C2; [exact INW|apply INO; lia]|]. split; assumption. }
  assert (NORMP : exists m2, bc1_normalize_split_blocks_in_place out (out + 4 * Z.of_nat n) n mode m1' = Ok m2 /\ zlen m2 = zlen m /\ only_changes areas m1' m2 /\
    slice m2 out (4 * Z.of_nat n) = sec 0 (normalised mode x) /\ slice m2 (out + 4 * Z.of_nat n) (4 * Z.of_nat n) = sec 4 (normalised mode x)).
  { rewrite (normalize_ok m1' out (out + 4 * Z.of_nat n) n mode x); unfold within, apartb; try assumption; try lia.
    destruct (two_slices m1' out (sec 0 (normalised mode x)) (out + 4 * Z.of_nat n) (sec 4 (normalised mode x)) (4 * Z.of_nat n)) as (Z2 & T1 & T2 & C2); try lia;
      try (apply L0; exact LN); try (apply L4; exact LN).
    eexists. split; [reflexivity|]. split; [lia|]. split; [apply C2; apply INO; lia|]. split; assumption. }
  destruct sp.
  - specialize (SL eq_refl).
    assert (FIN : forall m2, zlen m2 = zlen m -> only_changes areas m1 m2 -> slice m2 work (4 * Z.of_nat n) = sec 0 (normalised mode x) ->
      slice m2 (out + 4 * Z.of_nat n) (4 * Z.of_nat n) = sec 4 (normalised mode x) ->
      exists m', (do m <- be_split_at c work out (4 * Z.of_nat n) m2 ;; be_decorrelate_at true out (2 * Z.of_nat n) v m) = Ok m' /\ only_changes areas m m' /\
        slice m' out (8 * Z.of_nat n) = be_bc1_layout v true (normalised mode x)).
    { intros m2 Z2 C2 T1 T2. destruct (be_tail_split c m2 work out n v (normalised mode x)) as (m' & E & C3 & S3); unfold within, apartb; try assumption; try lia.
      exists m'. split; [exact E|]. split; [|exact S3]. apply oc_trans with (m2 := m1); [exact C1|]. apply oc_trans with (m2 := m2); [exact C2|]. apply OUT. exact C3. }
    rewrite andb_true_r. destruct mode; cbn [andb].
    + rewrite (SEP true). cbn [bind]. rewrite normalised_none with (n := n) in * by exact Hx. apply FIN; try assumption; try lia. apply oc_refl.
    + rewrite (SEP true). cbn [bind]. destruct NORMS as (m2 & E2 & Z2 & C2 & T1 & T2). rewrite E2. cbn [bind]. apply FIN; assumption.
    + rewrite (SEP true). cbn [bind]. destruct NORMS as (m2 & E2 & Z2 & C2 & T1 & T2). rewrite E2. cbn [bind]. apply FIN; assumption.
  - assert (FIN : forall m2, zlen m2 = zlen m -> only_changes areas m1' m2 -> slice m2 out (4 * Z.of_nat n) = sec 0 (normalised mode x) ->
      slice m2 (out + 4 * Z.of_nat n) (4 * Z.of_nat n) = sec 4 (normalised mode x) ->
      exists m', be_decorrelate_at true out (2 * Z.of_nat n) v m2 = Ok m' /\ only_changes areas m m' /\
        slice m' out (8 * Z.of_nat n) = be_bc1_layout v false (normalised mode x)).
    { intros m2 Z2 C2 T1 T2. destruct (be_tail_plain m2 out n v (normalised mode x)) as (m' & E & C3 & S3); unfold within; try assumption; try lia.
      exists m'. split; [exact E|]. split; [|exact S3]. apply oc_trans with (m2 := m1'); [exact C1'|]. apply oc_trans with (m2 := m2); [exact C2|]. apply OUT. exact C3. }
    rewrite andb_false_r. destruct mode; cbn [andb].
    + rewrite PLAIN. cbn [bind]. rewrite normalised_none with (n := n) in * by exact Hx. apply FIN; try assumption; try lia. apply oc_refl.
    + rewrite PLAIN. cbn [bind]. destruct NORMP as (m2 & E2 & Z2 & C2 & T1 & T2). rewrite E2. cbn [bind]. apply FIN; assumption.
    + rewrite PLAIN. cbn [bind]. destruct NORMP as (m2 & E2 & Z2 & C2 & T1 & T2). rewrite E2. cbn [bind]. apply FIN; assumption.
Qed.
