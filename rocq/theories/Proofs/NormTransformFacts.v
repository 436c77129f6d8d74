(** The BC1 transform with normalisation: one memory, all steps. *)
From Verif Require Import Base.Bytes Base.Res Model.Color565 Model.Ycc Model.Kernel Model.GenBc1Std Model.GenSplit565
  Model.ColorSlices Model.Transform Model.Auto Model.Decode Model.Normalize Model.NormTransform
  Spec.YCoCg Spec.Layout Spec.Pixels Spec.Normalize
  Proofs.KernelCheck Proofs.KernelLoop Proofs.KernelFun Proofs.Shapes Proofs.LayoutFacts Proofs.ShapeLayout Proofs.KBc1Std Proofs.KBc1ScrU
  Proofs.Families Proofs.TransformFacts Proofs.SliceFacts Proofs.KSplit565 Proofs.Split565Facts Proofs.ColorSlicesFacts
  Proofs.NormLoop Proofs.NormPixels Proofs.NormalizeFacts Proofs.NormSplit Proofs.NormDerived.
From Coq Require Import ZifyBool ZifyNat.

(** ** Lists *)
Lemma slice_ext : forall (a b : list byte) p q n, 0 <= p -> 0 <= q -> 0 <= n -> p + n <= zlen a -> q + n <= zlen b ->
  (forall t, 0 <= t < n -> znth a (p + t) = znth b (q + t)) -> slice a p n = slice b q n.
Proof.
  intros a b p q n H1 H2 H3 H4 H5 H. apply znth_ext.
  - rewrite !zlen_slice by lia. reflexivity.
  - intros i Hi. rewrite zlen_slice in Hi by lia. rewrite !znth_slice by lia. apply H. exact Hi.
Qed.

Lemma slice_slice : forall (l : list byte) p n q k, 0 <= p -> 0 <= n -> 0 <= q -> 0 <= k -> q + k <= n -> p + n <= zlen l ->
  slice (slice l p n) q k = slice l (p + q) k.
Proof.
  intros l p n q k H1 H2 H3 H4 H5 H6. apply slice_ext; try lia; [rewrite zlen_slice by lia; lia|].
  intros t Ht. rewrite znth_slice by lia. f_equal. lia.
Qed.

Lemma blocks8_step : forall n x, zlen x = 8 * (Z.of_nat (S n)) -> blocks 8 x = slice x 0 8 :: blocks 8 (slice x 8 (8 * Z.of_nat n)).
Proof.
  intros n x H. unfold blocks. assert (L : List.length x = (8 * S n)%nat) by (unfold zlen in H; lia).
  rewrite L. replace (8 * S n / 8)%nat with (S n) by (rewrite Nat.mul_comm, Nat.div_mul; lia).
  assert (L2 : List.length (slice x 8 (8 * Z.of_nat n)) = (8 * n)%nat).
  { assert (Z : zlen (slice x 8 (8 * Z.of_nat n)) = 8 * Z.of_nat n) by (apply zlen_slice; lia). unfold zlen in Z. lia. }
  rewrite L2. replace (8 * n / 8)%nat with n by (rewrite Nat.mul_comm, Nat.div_mul; lia).
  cbn [Layout.chunks]. f_equal. f_equal. unfold slice. replace (Z.to_nat 8) with 8%nat by reflexivity. symmetry.
  apply firstn_all2. rewrite skipn_length. lia.
Qed.

Lemma by_blocks : forall n (L x : list byte) p w (f : list byte -> list byte), 0 <= p -> 0 <= w -> p + w * Z.of_nat n <= zlen L ->
  zlen x = 8 * Z.of_nat n ->
  (forall k, 0 <= k < Z.of_nat n -> slice L (p + w * k) w = f (slice x (8 * k) 8)) ->
  slice L p (w * Z.of_nat n) = List.concat (map f (blocks 8 x)).
Proof.
  induction n as [|n IH]; intros L x p w f Hp Hw HL Hx H.
  - assert (x = []) by (destruct x; [reflexivity|unfold zlen in Hx; cbn in Hx; lia]). subst x.
    cbn. rewrite Z.mul_0_r. reflexivity.
  - rewrite (blocks8_step n x Hx). cbn [map List.concat].
    replace (w * Z.of_nat (S n)) with (w + w * Z.of_nat n) by lia. rewrite slice_app_split by lia.
    f_equal.
    + specialize (H 0 ltac:(lia)). rewrite Z.mul_0_r, Z.add_0_r in H. exact H.
    + apply IH; try lia. { rewrite zlen_slice by lia. lia. }
      intros k Hk. specialize (H (k + 1) ltac:(lia)). replace (p + w + w * k) with (p + w * (k + 1)) by lia. rewrite H.
      f_equal. rewrite slice_slice by lia. f_equal. lia.
Qed.

Lemma only_changes2 : forall m m' p a q b, 0 <= p -> 0 <= a -> p + a <= zlen m -> 0 <= q -> 0 <= b -> q + b <= zlen m ->
  p + a <= q \/ q + b <= p ->
  only_changes [(p, a); (q, b)] m m' -> m' = splice (splice m p (slice m' p a)) q (slice m' q b).
Proof.
  intros m m' p a q b H1 H2 H3 H4 H5 H6 D [L K].
  assert (Z1 : zlen (slice m' p a) = a) by (apply zlen_slice; lia).
  assert (Z2 : zlen (slice m' q b) = b) by (apply zlen_slice; lia).
  assert (Z3 : zlen (splice m p (slice m' p a)) = zlen m) by (apply zlen_splice; lia).
  apply znth_ext.
  - rewrite zlen_splice by lia. lia.
  - intros i Hi. rewrite znth_splice by lia. rewrite Z2. destruct ((q <=? i) && (i <? q + b)) eqn:E1.
    + rewrite znth_slice by lia. f_equal. lia.
    + rewrite znth_splice by lia. rewrite Z1. destruct ((p <=? i) && (i <? p + a)) eqn:E2.
      * rewrite znth_slice by lia. f_equal. lia.
      * apply K; [lia|]. intros p' len' I. destruct I as [I|[I|[]]]; injection I as <- <-; lia.
Qed.

(** ** The standard transform with separate outputs *)
Definition sec (off : nat) (x : list byte) : list byte := List.concat (map (raw off 4) (blocks 8 x)).
Lemma raw_slice : forall (b : list byte) off, raw off 4 b = slice b (Z.of_nat off) 4.
Proof. intros. unfold raw, slice. rewrite Nat2Z.id. reflexivity. Qed.
Lemma sec_len : forall off x n, (off <= 4)%nat -> zlen x = 8 * Z.of_nat n -> zlen (sec off x) = 4 * Z.of_nat n.
Proof.
  intros off x n Ho H. unfold sec. assert (LB : List.length (blocks 8 x) = n).
  { unfold blocks. rewrite chunks_length. unfold zlen in H. replace (List.length x) with (n * 8)%nat by lia. apply Nat.div_mul. lia. }
  unfold zlen. rewrite (length_concat_const 4).
  - rewrite map_length, LB. lia.
  - intros b Hb. apply in_map_iff in Hb. destruct Hb as (q & <- & Hq). unfold blocks in Hq.
    apply chunks_in in Hq; [|unfold zlen in H; replace (List.length x) with (n * 8)%nat by lia; rewrite Nat.div_mul by lia; lia].
    unfold raw. rewrite firstn_length, skipn_length. lia.
Qed.

Lemma separate_ok : forall c m inp c0 i0 n, cpu_ok c -> within m inp (8 * Z.of_nat n) -> within m c0 (4 * Z.of_nat n) -> within m i0 (4 * Z.of_nat n) ->
  apartb inp (8 * Z.of_nat n) c0 (4 * Z.of_nat n) = true -> apartb inp (8 * Z.of_nat n) i0 (4 * Z.of_nat n) = true ->
  apartb c0 (4 * Z.of_nat n) i0 (4 * Z.of_nat n) = true ->
  transform_separate_at c inp c0 i0 (8 * Z.of_nat n) m =
  Ok (splice (splice m c0 (sec 0 (slice m inp (8 * Z.of_nat n)))) i0 (sec 4 (slice m inp (8 * Z.of_nat n)))).
Proof.
  intros c m inp c0 i0 n K [I1 [I2 I3]] [C1 [C2 C3]] [X1 [X2 X3]] A1 A2 A3. unfold transform_separate_at.
  replace (8 * Z.of_nat n / 2) with (4 * Z.of_nat n) by lia. rewrite A1, A2, A3. cbn [andb]. unfold kernel_at.
  pose (C := Conf sh_bc1_std_t [Ptr BIn inp] [Ptr BOut c0; Ptr BOut i0]).
  assert (S0 : stride sh_bc1_std_t (PI 0) = 8) by reflexivity. assert (S1 : stride sh_bc1_std_t (PO 0) = 4) by reflexivity.
  assert (S2 : stride sh_bc1_std_t (PO 1) = 4) by reflexivity.
  assert (W : WF C (Mem m [] m) (Z.of_nat n)).
  { constructor; cbn [cf_sh cf_ins cf_outs C]; try reflexivity; try lia.
    - intros k Hk. destruct k as [|k]; [|cbn in Hk; lia]. rewrite S0. cbn [base cf_ins C nth p_buf p_off buf_of m_in]. split; [discriminate|]. lia.
    - intros j Hj. destruct j as [|[|j]]; [| |cbn in Hj; lia]; rewrite ?S1, ?S2; cbn [base cf_outs C nth p_buf p_off m_out]; (split; [reflexivity|]); lia.
    - unfold apartb in A3. intros j j' Hj Hj' NE. destruct j as [|[|j]]; [| |cbn in Hj; lia]; (destruct j' as [|[|j']]; [| |cbn in Hj'; lia]);
        rewrite ?S1, ?S2; cbn [base cf_outs C nth p_off]; lia. }
  destruct (bc1_std_t_transform_with_separate_pointers_ok c [Ptr BIn inp] [Ptr BOut c0; Ptr BOut i0] (Mem m [] m) (Z.of_nat n) 0 (Z.of_nat n) (Mem m [] m)
    K eq_refl I W ltac:(lia) ltac:(lia) ltac:(lia) (INV_0 _ _ _ _ _)) as (m' & X & V).
  cbv beta in X. unfold padd in X. cbn [base cf_ins cf_outs nth p_buf p_off] in X. rewrite !Z.mul_0_l, !Z.add_0_r in X.
  rewrite X. cbn [bind]. f_equal.
  destruct m' as [mi ma mo]. cbn [m_out].
  pose proof (inv_len _ _ _ _ _ _ _ V) as HL. pose proof (inv_done _ _ _ _ _ _ _ V) as HD. pose proof (inv_frame _ _ _ _ _ _ _ V) as HF.
  cbn [m_out m_in] in *. fold C in HD, HF.
  assert (LX : zlen (slice m inp (8 * Z.of_nat n)) = 8 * Z.of_nat n) by (apply zlen_slice; lia).
  assert (P : forall j off p, (j = 0%nat /\ off = 0%nat /\ p = c0) \/ (j = 1%nat /\ off = 4%nat /\ p = i0) ->
    slice mo p (4 * Z.of_nat n) = sec off (slice m inp (8 * Z.of_nat n))).
  { intros j off p J. unfold sec. apply by_blocks; try lia.
    intros k Hk. rewrite slice_slice by lia. rewrite raw_slice.
    rewrite slice_slice by lia. apply slice_ext; try lia.
    intros t Ht.
    assert (T : t = 0 \/ t = 1 \/ t = 2 \/ t = 3) by lia.
    destruct J as [[-> [-> ->]]|[-> [-> ->]]].
    - specialize (HD 0%nat k t ltac:(cbn; lia) ltac:(lia)). cbn [cf_sh C] in HD. rewrite S1 in HD. specialize (HD Ht).
      unfold at_blk in HD. cbn [cf_sh cf_outs C base nth padd p_off] in HD. rewrite S1 in HD.
      replace (c0 + 4 * k + t) with (c0 + k * 4 + t) by lia. rewrite HD. clear HD.
      destruct T as [->|[->|[->| ->]]]; match goal with |- _ = znth _ (_ + ?t) => match goal with |- ?l = _ => change l with (znth m (inp + k * 8 + (0 + t))) end end; f_equal; lia.
    - specialize (HD 1%nat k t ltac:(cbn; lia) ltac:(lia)). cbn [cf_sh C] in HD. rewrite S2 in HD. specialize (HD Ht).
      unfold at_blk in HD. cbn [cf_sh cf_outs C base nth padd p_off] in HD. rewrite S2 in HD.
      replace (i0 + 4 * k + t) with (i0 + k * 4 + t) by lia. rewrite HD. clear HD.
      destruct T as [->|[->|[->| ->]]]; match goal with |- _ = znth _ (_ + ?t) => match goal with |- ?l = _ => change l with (znth m (inp + k * 8 + (4 + t))) end end; f_equal; lia. }
  rewrite <- (P 0%nat 0%nat c0) by auto. rewrite <- (P 1%nat 4%nat i0) by auto.
  apply only_changes2; try lia; [unfold apartb in A3; lia|].
  split; [exact HL|]. intros i Hi NI. apply HF; [exact Hi|].
  intros j Hj. cbn in Hj. destruct j as [|[|j]]; [| |lia]; cbn [cf_sh C]; rewrite ?S1, ?S2; cbn [base cf_outs C nth p_off].
  - specialize (NI c0 (4 * Z.of_nat n) ltac:(left; reflexivity)). lia.
  - specialize (NI i0 (4 * Z.of_nat n) ltac:(right; left; reflexivity)). lia.
Qed.

(** ** The other steps *)
Lemma transform_at_ok : forall c m inp out len, cpu_ok c -> len mod 8 = 0 -> within m inp len -> within m out len -> apartb inp len out len = true ->
  transform_at c inp out len m = Ok (splice m out (bc1_layout VNone false (slice m inp len))).
Proof.
  intros c m inp out len K M [I1 [I2 I3]] [O1 [O2 O3]] A. unfold transform_at, kernel_at. rewrite A.
  pose proof (bc1_call c (Settings VNone false) m [] m inp out len K ltac:(intros _ E; discriminate E) M I2 I1 O1 I3 O3) as X.
  unfold transform_bc1_with_settings in X. cbn [split_colour_endpoints decorrelation_mode variant_eqb] in X.
  replace (len mod 8 =? 0) with true in X by lia. rewrite debug_assert_t in X. cbn [bind] in X. rewrite X. reflexivity.
Qed.

Definition decor (v : variant) (l : list byte) : list byte := of_colours (map (decorrelate v) (to_colours l)).

Lemma even_ind : forall P : list byte -> Prop, P [] -> (forall a b l, P l -> P (a :: b :: l)) -> forall n l, zlen l = 2 * Z.of_nat n -> P l.
Proof.
  intros P P0 P2. induction n as [|n IH]; intros l H.
  - destruct l; [exact P0|unfold zlen in H; cbn [List.length] in H; lia].
  - destruct l as [|a [|b l]]; [unfold zlen in H; cbn [List.length] in H; lia..|]. apply P2. apply IH. unfold zlen in *. cbn [List.length] in H. lia.
Qed.
Lemma to_colours_len : forall n l, zlen l = 2 * Z.of_nat n -> List.length (to_colours l) = n.
Proof.
  induction n as [|n IH]; intros l H.
  - destruct l; [reflexivity|unfold zlen in H; cbn [List.length] in H; lia].
  - destruct l as [|a [|b l]]; [unfold zlen in H; cbn [List.length] in H; lia..|]. cbn [to_colours List.length]. f_equal. apply IH.
    unfold zlen in *. cbn [List.length] in H. lia.
Qed.
Lemma of_colours_len : forall cs, zlen (of_colours cs) = 2 * zlen cs.
Proof. induction cs as [|x cs IH]; [reflexivity|]. unfold of_colours in *. cbn [flat_map]. rewrite zlen_app, IH. unfold zlen. cbn [List.length]. lia. Qed.
Lemma decor_len : forall v n l, zlen l = 2 * Z.of_nat n -> zlen (decor v l) = 2 * Z.of_nat n.
Proof. intros v n l H. unfold decor. rewrite of_colours_len. unfold zlen. rewrite map_length, (to_colours_len n l H). lia. Qed.
Lemma decor_app : forall v n a b, zlen a = 2 * Z.of_nat n -> decor v (a ++ b) = decor v a ++ decor v b.
Proof.
  intros v n a b H. revert b. refine (even_ind (fun a => forall b, decor v (a ++ b) = decor v a ++ decor v b) _ _ n a H).
  - reflexivity.
  - intros x y l IH b. unfold decor, of_colours in *. cbn [app to_colours map flat_map]. rewrite IH. reflexivity.
Qed.

Lemma colour_decor : forall v a b, [lo8 (decorrelate v (u16le a b)); hi8 (decorrelate v (u16le a b))] = decor v [a; b].
Proof. reflexivity. Qed.
Lemma decor_one : forall v (f g : field) bs,
  (forall b, In b bs -> exists n, zlen (f b) = 2 * Z.of_nat n) -> (forall b, In b bs -> decor v (f b) = g b) ->
  decor v (List.concat (map f bs)) = List.concat (map g bs).
Proof.
  intros v f g bs. induction bs as [|b bs IH]; intros L H; [reflexivity|]. cbn [map List.concat].
  destruct (L b (or_introl eq_refl)) as [n Hn]. rewrite (decor_app v n) by exact Hn. rewrite H by (left; reflexivity). f_equal.
  apply IH; intros; [apply L|apply H]; right; assumption.
Qed.
Lemma decor_two : forall v off bs, (forall b, In b bs -> List.length b = 8%nat) -> (off = 0 \/ off = 2)%nat ->
  decor v (List.concat (map (raw off 2) bs)) = List.concat (map (colour v off) bs).
Proof.
  intros v off bs L Ho. apply decor_one; intros b Hb; specialize (L b Hb); list_len b L.
  - exists 1%nat. destruct Ho as [->| ->]; reflexivity.
  - unfold colour. rewrite <- ycocg_decorrelate by apply u16le_bound. destruct Ho as [->| ->]; reflexivity.
Qed.
Lemma decor_four : forall v bs, (forall b, In b bs -> List.length b = 8%nat) ->
  decor v (List.concat (map (raw 0 4) bs)) = List.concat (map (both (colour v 0) (colour v 2)) bs).
Proof.
  intros v bs L. apply decor_one; intros b Hb; specialize (L b Hb); list_len b L.
  - exists 2%nat. reflexivity.
  - unfold both, colour. rewrite <- !ycocg_decorrelate by apply u16le_bound. reflexivity.
Qed.

(** The colour part of the layout, from the standard transform's colour section. *)
Definition colour_part (v : variant) (sp : bool) (y : list byte) : list byte := lay (colour_fields v sp 0) (blocks 8 y).
Lemma blocks_of_len : forall y b, In b (blocks 8 y) -> List.length b = 8%nat.
Proof. intros y b H. unfold blocks in H. apply chunks_in in H; [exact H|]. nia. Qed.
Lemma colour_part_plain : forall v y, decor v (sec 0 y) = colour_part v false y.
Proof. intros v y. unfold sec, colour_part, lay. cbn [colour_fields map List.concat]. rewrite app_nil_r. apply decor_four. apply blocks_of_len. Qed.
Lemma map_blocks4 : forall bs : list (list byte), (forall b, In b bs -> List.length b = 4%nat) -> blocks 4 (List.concat bs) = bs.
Proof.
  intros bs H. unfold blocks. rewrite (length_concat_const 4 _ H), Nat.div_mul by lia. rewrite <- (app_nil_r (List.concat bs)). apply chunks_app. exact H.
Qed.
Lemma colour_part_split : forall v y, decor v (lay [raw 0 2; raw 2 2] (blocks 4 (sec 0 y))) = colour_part v true y.
Proof.
  intros v y. unfold sec. rewrite map_blocks4.
  2:{ intros b Hb. apply in_map_iff in Hb. destruct Hb as (q & <- & Hq). apply blocks_of_len in Hq. list_len q Hq. reflexivity. }
  unfold lay, colour_part, lay. cbn [colour_fields map List.concat]. rewrite !app_nil_r, !map_map.
  assert (E0 : map (fun x => raw 0 2 (raw 0 4 x)) (blocks 8 y) = map (raw 0 2) (blocks 8 y)).
  { apply map_ext_in. intros q Hq. apply blocks_of_len in Hq. list_len q Hq. reflexivity. }
  assert (E2 : map (fun x => raw 2 2 (raw 0 4 x)) (blocks 8 y) = map (raw 2 2) (blocks 8 y)).
  { apply map_ext_in. intros q Hq. apply blocks_of_len in Hq. list_len q Hq. reflexivity. }
  rewrite E0, E2. rewrite (decor_app v (List.length (blocks 8 y))).
  - change (0 + 2)%nat with 2%nat. rewrite !decor_two by (apply blocks_of_len || lia). reflexivity.
  - unfold zlen. rewrite (length_concat_const 2); [rewrite map_length; lia|]. intros b Hb. apply in_map_iff in Hb. destruct Hb as (q & <- & Hq).
    apply blocks_of_len in Hq. list_len q Hq. reflexivity.
Qed.
Lemma layout_parts : forall v sp y, bc1_layout v sp y = colour_part v sp y ++ sec 4 y.
Proof.
  intros v sp y. unfold bc1_layout, bc1_fields, colour_part, sec, lay. rewrite map_app, concat_app. cbn [map List.concat]. rewrite app_nil_r. reflexivity.
Qed.

Lemma decorrelate_at_ok : forall m p n v, within m p (2 * Z.of_nat n) ->
  decorrelate_at true p (Z.of_nat n) v m = Ok (splice m p (decor v (slice m p (2 * Z.of_nat n)))).
Proof.
  intros m p n v [H1 [H2 H3]]. unfold decorrelate_at. cbn [negb andb]. rewrite load_ok by lia. cbn [bind].
  set (d := slice m p (2 * Z.of_nat n)). assert (Ld : zlen d = 2 * Z.of_nat n) by (apply zlen_slice; lia).
  pose proof (to_colours_len n d Ld) as LC. assert (ZC : zlen (to_colours d) = Z.of_nat n) by (unfold zlen; lia).
  rewrite decorrelate_ptr_ok by (first [lia | left; reflexivity]). cbn [bind].
  assert (E : splice (to_colours d) 0 (map (decorrelate v) (slice (to_colours d) 0 (Z.of_nat n))) = map (decorrelate v) (to_colours d)).
  { rewrite <- ZC, slice_all. rewrite splice_at_0, map_length, skipn_all, app_nil_r. reflexivity. }
  rewrite E. fold (decor v d). rewrite store_ok; [reflexivity|lia|]. rewrite (decor_len v n d Ld). lia.
Qed.
Lemma decorrelate_slice_at_ok : forall debug m src dst n v, within m src (2 * Z.of_nat n) -> within m dst (2 * Z.of_nat n) ->
  apartb src (2 * Z.of_nat n) dst (2 * Z.of_nat n) = true ->
  decorrelate_slice_at debug src dst (Z.of_nat n) v m = Ok (splice m dst (decor v (slice m src (2 * Z.of_nat n)))).
Proof.
  intros debug m src dst n v [H1 [H2 H3]] [D1 [D2 D3]] A. unfold decorrelate_slice_at. rewrite A. rewrite !load_ok by lia. cbn [bind].
  set (s := slice m src (2 * Z.of_nat n)). assert (Ls : zlen s = 2 * Z.of_nat n) by (apply zlen_slice; lia).
  set (d := slice m dst (2 * Z.of_nat n)). assert (Ld : zlen d = 2 * Z.of_nat n) by (apply zlen_slice; lia).
  pose proof (to_colours_len n d Ld) as LD. pose proof (to_colours_len n s Ls) as LS.
  rewrite decorrelate_slice_ok by (unfold zlen; lia). cbn [bind]. rewrite LS, <- LD, skipn_all, app_nil_r.
  fold (decor v s). rewrite store_ok; [reflexivity|lia|]. rewrite (decor_len v n s Ls). lia.
Qed.
Lemma split_at_ok : forall c m src dst n, cpu_ok c -> split_len_ok c (Z.of_nat n) -> within m src (4 * Z.of_nat n) -> within m dst (4 * Z.of_nat n) ->
  apartb src (4 * Z.of_nat n) dst (4 * Z.of_nat n) = true ->
  split_at c src dst (4 * Z.of_nat n) m = Ok (splice m dst (lay [raw 0 2; raw 2 2] (blocks 4 (slice m src (4 * Z.of_nat n))))).
Proof.
  intros c m src dst n K P [H1 [H2 H3]] [D1 [D2 D3]] A. unfold split_at, kernel_at. rewrite A.
  rewrite split_run by (assumption || lia). reflexivity.
Qed.

(** ** Normalised textures *)
Lemma sec_at : forall off n x k, (off <= 4)%nat -> zlen x = 8 * Z.of_nat n -> 0 <= k < Z.of_nat n ->
  slice (sec off x) (4 * k) 4 = slice x (8 * k + Z.of_nat off) 4.
Proof.
  intros off n. induction n as [|n IH]; intros x k Ho Hx Hk; [lia|].
  assert (Q : zlen (slice x 0 8) = 8) by (apply zlen_slice; lia).
  assert (Q2 : zlen (slice x 8 (8 * Z.of_nat n)) = 8 * Z.of_nat n) by (apply zlen_slice; lia).
  assert (L4 : zlen (raw off 4 (slice x 0 8)) = 4) by (rewrite raw_slice; apply zlen_slice; lia).
  unfold sec. rewrite (blocks8_step n x Hx). cbn [map List.concat]. fold (sec off (slice x 8 (8 * Z.of_nat n))).
  destruct (Z.eq_dec k 0) as [->|NE].
  - rewrite Z.mul_0_r. rewrite slice_app1 by exact L4. rewrite raw_slice, slice_slice by lia. f_equal; lia.
  - replace (4 * k) with (4 + 4 * (k - 1)) by lia. rewrite slice_app2 by (exact L4 || lia).
    rewrite IH by lia. rewrite slice_slice by lia. f_equal. lia.
Qed.

Definition normalised (mode : color_norm) (x : list byte) : list byte := List.concat (map (bc1_F mode) (blocks 8 x)).
Lemma bc1_F_len : forall mode b, zlen b = 8 -> zlen (bc1_F mode b) = 8.
Proof.
  intros mode b L. pose proof (bc1_F_normal mode b) as [[-> E]|[_ [[_ E]|[[v [_ E]]|[_ [_ E]]]]]]; rewrite E; try exact L; [reflexivity|apply solid_len].
Qed.
Lemma normalised_blocks : forall mode x, blocks 8 (normalised mode x) = map (bc1_F mode) (blocks 8 x).
Proof.
  intros mode x. assert (L : forall b, In b (map (bc1_F mode) (blocks 8 x)) -> List.length b = 8%nat).
  { intros b Hb. apply in_map_iff in Hb. destruct Hb as (q & <- & Hq). apply blocks_of_len in Hq.
    pose proof (bc1_F_len mode q ltac:(unfold zlen; lia)) as Z. unfold zlen in Z. lia. }
  unfold normalised. unfold blocks at 1. rewrite (length_concat_const 8 _ L), Nat.div_mul by lia.
  rewrite <- (app_nil_r (List.concat _)). apply chunks_app. exact L.
Qed.
Lemma normalised_at : forall mode n x k, zlen x = 8 * Z.of_nat n -> 0 <= k < Z.of_nat n ->
  slice (normalised mode x) (8 * k) 8 = bc1_F mode (slice x (8 * k) 8).
Proof.
  intros mode n. induction n as [|n IH]; intros x k Hx Hk; [lia|].
  assert (Q : zlen (slice x 0 8) = 8) by (apply zlen_slice; lia).
  assert (Q2 : zlen (slice x 8 (8 * Z.of_nat n)) = 8 * Z.of_nat n) by (apply zlen_slice; lia).
  unfold normalised. rewrite (blocks8_step n x Hx). cbn [map List.concat]. fold (normalised mode (slice x 8 (8 * Z.of_nat n))).
  pose proof (bc1_F_len mode _ Q) as L8.
  destruct (Z.eq_dec k 0) as [->|NE].
  - rewrite Z.mul_0_r. apply slice_app1. exact L8.
  - replace (8 * k) with (8 + 8 * (k - 1)) by lia. rewrite slice_app2 by (exact L8 || lia).
    rewrite IH by lia. rewrite slice_slice by lia. reflexivity.
Qed.
Lemma normalised_len : forall mode n x, zlen x = 8 * Z.of_nat n -> zlen (normalised mode x) = 8 * Z.of_nat n.
Proof.
  intros mode n x Hx. unfold normalised, zlen. rewrite (length_concat_const 8).
  - rewrite map_length. unfold blocks. rewrite chunks_length. unfold zlen in Hx. replace (List.length x) with (n * 8)%nat by lia. rewrite Nat.div_mul by lia. lia.
  - intros b Hb. apply in_map_iff in Hb. destruct Hb as (q & <- & Hq). apply blocks_of_len in Hq.
    pose proof (bc1_F_len mode q ltac:(unfold zlen; lia)) as Z. unfold zlen in Z. lia.
Qed.
Lemma normalised_blockwise : forall mode n x, zlen x = 8 * Z.of_nat n -> blockwise 8 (bc1_normal mode) x (normalised mode x).
Proof.
  intros mode n x Hx. split; [rewrite (normalised_len mode n x Hx); lia|]. intros k K0 K1.
  rewrite (normalised_at mode n x k Hx) by lia. apply bc1_F_normal.
Qed.
Lemma normalised_none : forall n x, zlen x = 8 * Z.of_nat n -> normalised CNone x = x.
Proof.
  intros n x Hx. unfold normalised. cbn [bc1_F]. rewrite map_ext with (g := fun b => b) by reflexivity. rewrite map_id.
  unfold blocks. apply concat_chunks. unfold zlen in Hx. replace (List.length x) with (n * 8)%nat by lia. rewrite Nat.div_mul by lia. reflexivity.
Qed.

Lemma normalize_ok : forall m c0 i0 n mode x, within m c0 (4 * Z.of_nat n) -> within m i0 (4 * Z.of_nat n) ->
  apartb c0 (4 * Z.of_nat n) i0 (4 * Z.of_nat n) = true -> zlen x = 8 * Z.of_nat n ->
  slice m c0 (4 * Z.of_nat n) = sec 0 x -> slice m i0 (4 * Z.of_nat n) = sec 4 x ->
  bc1_normalize_split_blocks_in_place c0 i0 n mode m =
  Ok (splice (splice m c0 (sec 0 (normalised mode x))) i0 (sec 4 (normalised mode x))).
Proof.
  intros m c0 i0 n mode x [C1 [C2 C3]] [I1 [I2 I3]] A Hx Ec Ei.
  assert (A' : c0 + 4 * Z.of_nat n <= i0 \/ i0 + 4 * Z.of_nat n <= c0) by (unfold apartb in A; lia).
  assert (P : parts_ok m [(c0, 4); (i0, 4)] (Z.of_nat n)).
  { split.
    - intros p w I. destruct I as [I|[I|[]]]; injection I as <- <-; unfold within; lia.
    - apply List.FOP_cons; [|apply List.FOP_cons; [apply Forall_nil|apply List.FOP_nil]]. apply Forall_cons; [|apply Forall_nil]. cbn [fst snd]. lia. }
  destruct (lC37_split m c0 i0 n mode P) as (m' & E & OC & N). rewrite E. f_equal.
  pose proof (normalised_len mode n x Hx) as Hy.
  pose proof (proj1 OC) as L.
  assert (B : forall k, 0 <= k < Z.of_nat n -> slice m' (c0 + 4 * k) 4 ++ slice m' (i0 + 4 * k) 4 = slice (normalised mode x) (8 * k) 8).
  { intros k Hk. specialize (N k Hk). rewrite !gather2 in N.
    assert (G : slice m (c0 + 4 * k) 4 ++ slice m (i0 + 4 * k) 4 = slice x (8 * k) 8).
    { rewrite <- (slice_slice m c0 (4 * Z.of_nat n) (4 * k) 4) by lia. rewrite <- (slice_slice m i0 (4 * Z.of_nat n) (4 * k) 4) by lia.
      rewrite Ec, Ei. rewrite (sec_at 0 n), (sec_at 4 n) by lia. change (Z.of_nat 0) with 0. change (Z.of_nat 4) with 4. rewrite Z.add_0_r.
      change 8 with (4 + 4) at 4. rewrite slice_app_split by lia. reflexivity. }
    rewrite G in N. rewrite (normalised_at mode n x k Hx Hk). apply (bc1_functional _ _ _ _ N (bc1_F_normal mode _)). }
  assert (SC : slice m' c0 (4 * Z.of_nat n) = sec 0 (normalised mode x)).
  { apply by_blocks; try lia. intros k Hk. rewrite <- (B k Hk). rewrite raw_slice. symmetry. apply slice_app1. apply zlen_slice; lia. }
  assert (SI : slice m' i0 (4 * Z.of_nat n) = sec 4 (normalised mode x)).
  { apply by_blocks; try lia. intros k Hk. rewrite <- (B k Hk). rewrite raw_slice. symmetry. apply slice_app2'; apply zlen_slice; lia. }
  rewrite <- SC, <- SI. apply only_changes2; lia || assumption.
Qed.

(** ** Putting the steps together *)
Lemma oc_refl : forall areas m, only_changes areas m m.
Proof. intros. split; [reflexivity|auto]. Qed.
Lemma oc_trans : forall areas m1 m2 m3, only_changes areas m1 m2 -> only_changes areas m2 m3 -> only_changes areas m1 m3.
Proof.
  intros areas m1 m2 m3 [L1 K1] [L2 K2]. split; [lia|]. intros i Hi N. rewrite K2 by (assumption || lia). apply K1; assumption.
Qed.
Lemma oc_splice : forall areas m p d q len, 0 <= p -> p + zlen d <= zlen m -> In (q, len) areas -> q <= p -> p + zlen d <= q + len ->
  only_changes areas m (splice m p d).
Proof.
  intros areas m p d q len H1 H2 I H3 H4. split; [apply zlen_splice; lia|]. intros i Hi N. specialize (N q len I).
  rewrite znth_splice by lia. destruct (_ && _) eqn:E; [lia|reflexivity].
Qed.
Lemma oc_slice : forall areas m m' p n, only_changes areas m m' -> 0 <= p -> 0 <= n -> p + n <= zlen m ->
  (forall q len, In (q, len) areas -> p + n <= q \/ q + len <= p) -> slice m' p n = slice m p n.
Proof.
  intros areas m m' p n [L K] H1 H2 H3 D. apply slice_ext; try lia. intros t Ht. apply K; [lia|]. intros q len I. specialize (D q len I). lia.
Qed.
Lemma oc_incl : forall a b m m', only_changes a m m' ->
  (forall p l, In (p, l) a -> exists q k, In (q, k) b /\ q <= p /\ p + l <= q + k) -> only_changes b m m'.
Proof.
  intros a b m m' [L K] H. split; [exact L|]. intros i Hi N. apply K; [exact Hi|]. intros p l I.
  destruct (H p l I) as (q & k & J & H1 & H2). specialize (N q k J). lia.
Qed.

Lemma tail_plain : forall m out n v y, zlen y = 8 * Z.of_nat n -> within m out (8 * Z.of_nat n) ->
  slice m out (4 * Z.of_nat n) = sec 0 y -> slice m (out + 4 * Z.of_nat n) (4 * Z.of_nat n) = sec 4 y ->
  exists m', decorrelate_at true out (2 * Z.of_nat n) v m = Ok m' /\ only_changes [(out, 8 * Z.of_nat n)] m m' /\
    slice m' out (8 * Z.of_nat n) = bc1_layout v false y.
Proof.
  intros m out n v y Hy [O1 [O2 O3]] E0 E4.
  pose proof (decorrelate_at_ok m out (2 * n) v) as D.
  replace (Z.of_nat (2 * n)) with (2 * Z.of_nat n) in D by lia. replace (2 * (2 * Z.of_nat n)) with (4 * Z.of_nat n) in D by lia.
  rewrite D by (unfold within; lia). clear D. rewrite E0, colour_part_plain.
  assert (LC : zlen (colour_part v false y) = 4 * Z.of_nat n).
  { rewrite <- colour_part_plain. pose proof (decor_len v (2 * n) (sec 0 y)) as Q. rewrite (sec_len 0 y n) in Q by (lia || exact Hy). lia. }
  eexists. split; [reflexivity|]. split.
  - apply oc_splice with (q := out) (len := 8 * Z.of_nat n); try lia. left. reflexivity.
  - rewrite layout_parts. replace (8 * Z.of_nat n) with (4 * Z.of_nat n + 4 * Z.of_nat n) by lia. rewrite slice_app_split by lia. f_equal.
    + apply slice_splice_same'; lia.
    + rewrite slice_splice_apart by lia. exact E4.
Qed.
Lemma tail_split : forall c m work out n v y, cpu_ok c -> split_len_ok c (Z.of_nat n) -> zlen y = 8 * Z.of_nat n ->
  within m work (4 * Z.of_nat n) -> within m out (8 * Z.of_nat n) -> apartb work (4 * Z.of_nat n) out (8 * Z.of_nat n) = true ->
  slice m work (4 * Z.of_nat n) = sec 0 y -> slice m (out + 4 * Z.of_nat n) (4 * Z.of_nat n) = sec 4 y ->
  exists m', (do m <- split_at c work out (4 * Z.of_nat n) m ;; decorrelate_at true out (2 * Z.of_nat n) v m) = Ok m' /\
    only_changes [(out, 8 * Z.of_nat n)] m m' /\ slice m' out (8 * Z.of_nat n) = bc1_layout v true y.
Proof.
  intros c m work out n v y K P Hy W [O1 [O2 O3]] A E0 E4.
  rewrite split_at_ok; try assumption; try (unfold within; lia); [|unfold apartb in *; lia]. cbn [bind]. rewrite E0.
  set (S := lay [raw 0 2; raw 2 2] (blocks 4 (sec 0 y))).
  assert (LS : zlen S = 4 * Z.of_nat n).
  { unfold S, zlen. rewrite (lay_length 4 _ [2; 2]%nat).
    - unfold blocks. rewrite chunks_length. pose proof (sec_len 0 y n ltac:(lia) Hy) as Q. unfold zlen in Q.
      replace (List.length (sec 0 y)) with (n * 4)%nat by lia. rewrite Nat.div_mul by lia. cbn [sum fold_right]. lia.
    - repeat constructor; intros b Hb; list_len b Hb; reflexivity.
    - intros b Hb. unfold blocks in Hb. apply chunks_in in Hb; [exact Hb|]. nia. }
  pose proof (decorrelate_at_ok (splice m out S) out (2 * n) v) as D.
  replace (Z.of_nat (2 * n)) with (2 * Z.of_nat n) in D by lia. replace (2 * (2 * Z.of_nat n)) with (4 * Z.of_nat n) in D by lia.
  assert (Z1 : zlen (splice m out S) = zlen m) by (apply zlen_splice; lia).
  rewrite D by (unfold within; lia). clear D. rewrite (slice_splice_same' m out S) by lia. unfold S at 2. rewrite colour_part_split.
  assert (LC : zlen (colour_part v true y) = 4 * Z.of_nat n).
  { rewrite <- colour_part_split. fold S. pose proof (decor_len v (2 * n) S) as Q. lia. }
  eexists. split; [reflexivity|]. split.
  - apply oc_trans with (m2 := splice m out S); (apply oc_splice with (q := out) (len := 8 * Z.of_nat n); try lia; left; reflexivity).
  - rewrite layout_parts. replace (8 * Z.of_nat n) with (4 * Z.of_nat n + 4 * Z.of_nat n) by lia. rewrite slice_app_split by lia. f_equal.
    + apply slice_splice_same'; lia.
    + rewrite slice_splice_apart by lia. rewrite slice_splice_apart by lia. exact E4.
Qed.

Lemma two_slices : forall m p (a : list byte) q (b : list byte) n, 0 <= p -> p + n <= zlen m -> 0 <= q -> q + n <= zlen m -> zlen a = n -> zlen b = n -> p + n <= q \/ q + n <= p ->
  let m' := splice (splice m p a) q b in zlen m' = zlen m /\ slice m' p n = a /\ slice m' q n = b /\
  (forall areas, (exists r k, In (r, k) areas /\ r <= p /\ p + n <= r + k) -> (exists r k, In (r, k) areas /\ r <= q /\ q + n <= r + k) -> only_changes areas m m').
Proof.
  intros m p a q b n H1 H2 H3 H4 La Lb D m'. pose proof (zlen_nonneg _ a).
  assert (Z1 : zlen (splice m p a) = zlen m) by (apply zlen_splice; lia).
  split; [unfold m'; rewrite zlen_splice by lia; exact Z1|]. split; [|split].
  - unfold m'. rewrite slice_splice_apart by lia. apply slice_splice_same'; lia.
  - unfold m'. apply slice_splice_same'; lia.
  - intros areas (r & k & I & R1 & R2) (r' & k' & I' & R1' & R2').
    apply oc_trans with (m2 := splice m p a).
    + apply oc_splice with (q := r) (len := k); try assumption; lia.
    + apply oc_splice with (q := r') (len := k'); try assumption; lia.
Qed.

Lemma with_normalize_ok : forall c m inp out work len d, cpu_ok c -> len mod 8 = 0 ->
  within m inp len -> within m out len -> within m work (len / 2) ->
  apartb inp len out len = true -> apartb inp len work (len / 2) = true -> apartb work (len / 2) out len = true ->
  (d_split d = true -> split_len_ok c (len / 8)) ->
  exists m', transform_bc1_with_normalize_blocks c true inp out work len d m = Ok m' /\ only_changes [(out, len); (work, len / 2)] m m' /\
    slice m' out len = bc1_layout (d_decorr d) (d_split d) (normalised (d_norm d) (slice m inp len)).
Proof.
  intros c m inp out work len d K M WI WO WW A1 A2 A3 SL.
  destruct WI as [I1 [I2 I3]]. destruct WO as [O1 [O2 O3]]. destruct WW as [W1 [W2 W3]].
  assert (EN : exists n, len = 8 * Z.of_nat n) by (exists (Z.to_nat (len / 8)); lia). destruct EN as [n ->].
  unfold transform_bc1_with_normalize_blocks.
  replace (8 * Z.of_nat n mod 8 =? 0) with true by lia. rewrite debug_assert_t. cbn [bind].
  replace (8 * Z.of_nat n / 2) with (4 * Z.of_nat n) in * by lia. replace (4 * Z.of_nat n / 2) with (2 * Z.of_nat n) by lia.
  replace (8 * Z.of_nat n / 8) with (Z.of_nat n) in * by lia. rewrite Nat2Z.id.
  set (x := slice m inp (8 * Z.of_nat n)). assert (Hx : zlen x = 8 * Z.of_nat n) by (apply zlen_slice; lia).
  set (areas := [(out, 8 * Z.of_nat n); (work, 4 * Z.of_nat n)]).
  unfold apartb in A1, A2, A3.
  assert (OUT : forall m1 m2, only_changes [(out, 8 * Z.of_nat n)] m1 m2 -> only_changes areas m1 m2).
  { intros m1 m2 H. apply (oc_incl _ _ _ _ H). intros p l [I|[]]. pose proof (f_equal fst I) as I1'. pose proof (f_equal snd I) as I2'. cbn [fst snd] in I1', I2'. subst p l. exists out, (8 * Z.of_nat n). split; [left; reflexivity|lia]. }
  assert (INW : exists r k, In (r, k) areas /\ r <= work /\ work + 4 * Z.of_nat n <= r + k) by (exists work, (4 * Z.of_nat n); split; [right; left; reflexivity|lia]).
  assert (INO : forall p, out <= p -> p + 4 * Z.of_nat n <= out + 8 * Z.of_nat n -> exists r k, In (r, k) areas /\ r <= p /\ p + 4 * Z.of_nat n <= r + k)
    by (intros p P1 P2; exists out, (8 * Z.of_nat n); split; [left; reflexivity|lia]).
  assert (L0 : forall y, zlen y = 8 * Z.of_nat n -> zlen (sec 0 y) = 4 * Z.of_nat n) by (intros y Hy; apply sec_len; [lia|exact Hy]).
  assert (L4 : forall y, zlen y = 8 * Z.of_nat n -> zlen (sec 4 y) = 4 * Z.of_nat n) by (intros y Hy; apply sec_len; [lia|exact Hy]).
  assert (LN : zlen (normalised (d_norm d) x) = 8 * Z.of_nat n) by (apply normalised_len; exact Hx).
  assert (SEP : forall sp : bool, transform_separate_at c inp work (out + 4 * Z.of_nat n) (8 * Z.of_nat n) m = Ok (splice (splice m work (sec 0 x)) (out + 4 * Z.of_nat n) (sec 4 x))).
  { intros _. apply separate_ok; unfold within, apartb; try assumption; try lia. }
  destruct (two_slices m work (sec 0 x) (out + 4 * Z.of_nat n) (sec 4 x) (4 * Z.of_nat n)) as (Z1 & S1 & S2 & C1); try lia; try (apply L0; exact Hx); try (apply L4; exact Hx).
  specialize (C1 areas INW (INO (out + 4 * Z.of_nat n) ltac:(lia) ltac:(lia))). set (m1 := splice (splice m work (sec 0 x)) (out + 4 * Z.of_nat n) (sec 4 x)) in *.
  assert (PLAIN : transform_at c inp out (8 * Z.of_nat n) m = Ok (splice (splice m out (sec 0 x)) (out + 4 * Z.of_nat n) (sec 4 x))).
  { rewrite transform_at_ok; unfold within, apartb; try assumption; try lia. fold x. f_equal. rewrite layout_parts. rewrite <- colour_part_plain.
    assert (DN : decor VNone (sec 0 x) = sec 0 x).
    { unfold decor. rewrite map_ident by reflexivity. revert Hx. clear. intros Hx. pose proof (sec_len 0 x n ltac:(lia) Hx) as L.
      refine (even_ind (fun l => of_colours (to_colours l) = l) eq_refl _ (2 * n) (sec 0 x) _); [|lia].
      intros a b l IH. unfold of_colours in *. cbn [to_colours flat_map app]. rewrite IH, lo8_u16le, hi8_u16le. reflexivity. }
    rewrite DN. pose proof (L0 x Hx) as L0x. pose proof (L4 x Hx) as L4x. rewrite <- L0x. symmetry. apply NormLoop.splice_splice; lia. }
  destruct (two_slices m out (sec 0 x) (out + 4 * Z.of_nat n) (sec 4 x) (4 * Z.of_nat n)) as (Z1' & S1' & S2' & C1'); try lia; try (apply L0; exact Hx); try (apply L4; exact Hx).
  specialize (C1' areas (INO out ltac:(lia) ltac:(lia)) (INO (out + 4 * Z.of_nat n) ltac:(lia) ltac:(lia))). set (m1' := splice (splice m out (sec 0 x)) (out + 4 * Z.of_nat n) (sec 4 x)) in *.
  destruct d as [mode v sp]. cbn [d_norm d_decorr d_split] in *.
  assert (NORMS : exists m2, bc1_normalize_split_blocks_in_place work (out + 4 * Z.of_nat n) n mode m1 = Ok m2 /\ zlen m2 = zlen m /\ only_changes areas m1 m2 /\
    slice m2 work (4 * Z.of_nat n) = sec 0 (normalised mode x) /\ slice m2 (out + 4 * Z.of_nat n) (4 * Z.of_nat n) = sec 4 (normalised mode x)).
  { rewrite (normalize_ok m1 work (out + 4 * Z.of_nat n) n mode x); unfold within, apartb; try assumption; try lia.
    destruct (two_slices m1 work (sec 0 (normalised mode x)) (out + 4 * Z.of_nat n) (sec 4 (normalised mode x)) (4 * Z.of_nat n)) as (Z2 & T1 & T2 & C2); try lia;
      try (apply L0; exact LN); try (apply L4; exact LN).
    eexists. split; [reflexivity|]. split; [lia|]. split; [apply C2; [exact INW|apply INO; lia]|]. split; assumption. }
  assert (NORMP : exists m2, bc1_normalize_split_blocks_in_place out (out + 4 * Z.of_nat n) n mode m1' = Ok m2 /\ zlen m2 = zlen m /\ only_changes areas m1' m2 /\
    slice m2 out (4 * Z.of_nat n) = sec 0 (normalised mode x) /\ slice m2 (out + 4 * Z.of_nat n) (4 * Z.of_nat n) = sec 4 (normalised mode x)).
  { rewrite (normalize_ok m1' out (out + 4 * Z.of_nat n) n mode x); unfold within, apartb; try assumption; try lia.
    destruct (two_slices m1' out (sec 0 (normalised mode x)) (out + 4 * Z.of_nat n) (sec 4 (normalised mode x)) (4 * Z.of_nat n)) as (Z2 & T1 & T2 & C2); try lia;
      try (apply L0; exact LN); try (apply L4; exact LN).
    eexists. split; [reflexivity|]. split; [lia|]. split; [apply C2; apply INO; lia|]. split; assumption. }
  destruct sp.
  - specialize (SL eq_refl).
    assert (FIN : forall m2, zlen m2 = zlen m -> only_changes areas m1 m2 -> slice m2 work (4 * Z.of_nat n) = sec 0 (normalised mode x) ->
      slice m2 (out + 4 * Z.of_nat n) (4 * Z.of_nat n) = sec 4 (normalised mode x) ->
      exists m', (do m <- split_at c work out (4 * Z.of_nat n) m2 ;; decorrelate_at true out (2 * Z.of_nat n) v m) = Ok m' /\ only_changes areas m m' /\
        slice m' out (8 * Z.of_nat n) = bc1_layout v true (normalised mode x)).
    { intros m2 Z2 C2 T1 T2. destruct (tail_split c m2 work out n v (normalised mode x)) as (m' & E & C3 & S3); unfold within, apartb; try assumption; try lia.
      exists m'. split; [exact E|]. split; [|exact S3]. apply oc_trans with (m2 := m1); [exact C1|]. apply oc_trans with (m2 := m2); [exact C2|]. apply OUT. exact C3. }
    rewrite andb_true_r. destruct mode; cbn [andb].
    + rewrite (SEP true). cbn [bind]. rewrite normalised_none with (n := n) in * by exact Hx. apply FIN; try assumption; try lia. apply oc_refl.
    + rewrite (SEP true). cbn [bind]. destruct NORMS as (m2 & E2 & Z2 & C2 & T1 & T2). rewrite E2. cbn [bind]. apply FIN; assumption.
    + rewrite (SEP true). cbn [bind]. destruct NORMS as (m2 & E2 & Z2 & C2 & T1 & T2). rewrite E2. cbn [bind]. apply FIN; assumption.
  - assert (FIN : forall m2, zlen m2 = zlen m -> only_changes areas m1' m2 -> slice m2 out (4 * Z.of_nat n) = sec 0 (normalised mode x) ->
      slice m2 (out + 4 * Z.of_nat n) (4 * Z.of_nat n) = sec 4 (normalised mode x) ->
      exists m', decorrelate_at true out (2 * Z.of_nat n) v m2 = Ok m' /\ only_changes areas m m' /\
        slice m' out (8 * Z.of_nat n) = bc1_layout v false (normalised mode x)).
    { intros m2 Z2 C2 T1 T2. destruct (tail_plain m2 out n v (normalised mode x)) as (m' & E & C3 & S3); unfold within; try assumption; try lia.
      exists m'. split; [exact E|]. split; [|exact S3]. apply oc_trans with (m2 := m1'); [exact C1'|]. apply oc_trans with (m2 := m2); [exact C2|]. apply OUT. exact C3. }
    rewrite andb_false_r. destruct mode; cbn [andb].
    + rewrite PLAIN. cbn [bind]. rewrite normalised_none with (n := n) in * by exact Hx. apply FIN; try assumption; try lia. apply oc_refl.
    + rewrite PLAIN. cbn [bind]. destruct NORMP as (m2 & E2 & Z2 & C2 & T1 & T2). rewrite E2. cbn [bind]. apply FIN; assumption.
    + rewrite PLAIN. cbn [bind]. destruct NORMP as (m2 & E2 & Z2 & C2 & T1 & T2). rewrite E2. cbn [bind]. apply FIN; assumption.
Qed.
