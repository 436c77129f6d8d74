(** No block makes a fuzz target fail. *)
From Verif Require Import Base.Bytes Base.Res Model.Color565 Model.Decode Model.Normalize Model.Inspect Model.Fuzz Spec.Pixels Spec.Normalize
  Proofs.DecodeFacts Proofs.NormDerived Proofs.NormSplit Proofs.InspectFacts.
From Coq Require Import String.
Open Scope list_scope.
Open Scope Z_scope.

Lemma same_ok : forall a b, a = b -> assert_same a b = Ok tt.
Proof. intros a b ->. unfold assert_same. replace (pixels_eqb b b) with true by (symmetry; apply pixels_eqb_eq; reflexivity). reflexivity. Qed.
Lemma same_iff : forall a b, assert_same a b = Ok tt <-> a = b.
Proof.
  intros a b. split; [|apply same_ok]. unfold assert_same. destruct (pixels_eqb a b) eqn:E; [intros _; apply pixels_eqb_eq; exact E|discriminate].
Qed.
Lemma each_ok : forall A (l : list A) body, (forall x, In x l -> body x = Ok tt) -> each l body = Ok tt.
Proof. intros A l body. induction l as [|x l IH]; intros H; [reflexivity|]. cbn [each]. rewrite (H x (or_introl eq_refl)). cbn [bind]. apply IH. intros y Hy. apply H. right. exact Hy. Qed.

Lemma dec1 : forall b, zlen b = 8 -> decode_bc1_block b = Ok (picture bc1_pixel b).
Proof. intros b H. apply lC36. lia. Qed.
Lemma dec2 : forall b, zlen b = 16 -> decode_bc2_block b = Ok (picture bc2_pixel b).
Proof. intros b H. apply lC36. lia. Qed.
Lemma dec3 : forall b, zlen b = 16 -> decode_bc3_block b = Ok (picture bc3_pixel b).
Proof. intros b H. apply lC36. lia. Qed.
Lemma one_block : forall k (R : list byte -> list byte -> Prop) x y, zlen x = k -> 0 < k -> blockwise k R x y -> R x y /\ zlen y = k.
Proof.
  intros k R x y L K (LY & H). specialize (H 0 ltac:(lia) ltac:(lia)). rewrite Z.mul_0_r in H.
  rewrite !slice_all' in H by lia. split; [exact H|lia].
Qed.
Lemma first_of : forall (b z : list byte) k, zlen b = k -> slice (b ++ z) 0 k = b.
Proof. intros b z k H. apply slice_app1. exact H. Qed.
Ltac mem_ok := unfold within, apart; rewrite ?zlen_app, ?NormLoop.zlen_repeat; lia.

Section Blocks.
Variable debug : bool.
Variable block : list byte.

Section Eight.
Hypothesis L : zlen block = 8.
Lemma bc1_one : forall mode z, 8 <= zlen z ->
  exists m, bc1_normalize_blocks debug 0 8 8 mode (block ++ z) = Ok m /\ decode_bc1_block (slice m 8 8) = Ok (picture bc1_pixel block).
Proof.
  intros mode z HZ. destruct (lC37 debug (block ++ z) 0 8 8 mode) as (m & E & _ & P & _); [mem_ok|mem_ok|reflexivity|right; mem_ok|].
  exists m. split; [exact E|]. rewrite first_of in P by exact L. apply one_block in P as (P & LY); [|exact L|lia]. rewrite (dec1 _ LY), P. reflexivity.
Qed.
Lemma fuzz_bc1_normalize_ok : fuzz_bc1_normalize debug block = Ok tt.
Proof.
  unfold fuzz_bc1_normalize. rewrite (dec1 block L). cbn [bind].
  destruct (bc1_one Color0Only (repeat x00 8) ltac:(reflexivity || (cbv; discriminate))) as (m & E & D). rewrite E. cbn [bind]. rewrite D. cbn [bind]. rewrite same_ok by reflexivity. cbn [bind].
  destruct (bc1_one ReplicateColor (repeat x00 8) ltac:(reflexivity || (cbv; discriminate))) as (m2 & E2 & D2). rewrite E2. cbn [bind]. rewrite D2. cbn [bind]. apply same_ok. reflexivity.
Qed.
Lemma kept_picture : forall x y, bc1_kept x y -> picture bc1_pixel y = picture bc1_pixel x.
Proof.
  intros x y [(T & ->)|(_ & ->)]; [|reflexivity]. unfold picture. apply map_ext_in. intros i Hi. apply in_seq in Hi. rewrite (T i) by lia.
  assert (A : forallb (fun i => pixels_eqb [bc1_pixel (repeat xff 8) i] [mkC 0 0 0 0]) (seq 0 16) = true) by (vm_compute; reflexivity).
  rewrite forallb_forall in A. specialize (A i ltac:(apply in_seq; lia)). apply pixels_eqb_eq in A. injection A as A. exact A.
Qed.
Lemma fuzz_bc1_all_ok : fuzz_bc1_normalize_all_modes debug block = Ok tt.
Proof.
  unfold fuzz_bc1_normalize_all_modes. rewrite (dec1 block L). cbn [bind].
  destruct (lC39_bc1_same debug (block ++ repeat x00 24) 0 8 8 16 24) as (any & m & E & _ & P & K & _); try mem_ok; try reflexivity; try (right; mem_ok).
  rewrite E. cbn [bind snd]. rewrite first_of in K by exact L. apply one_block in K as (K & LY); [|exact L|lia].
  apply each_ok. intros o Ho. destruct Ho as [<-|Ho].
  - rewrite (dec1 _ LY). cbn [bind]. apply same_ok. symmetry. apply kept_picture. exact K.
  - assert (X : exists mode, In (mode, o) [(Color0Only, 16); (ReplicateColor, 24)]) by (destruct Ho as [<-|[<-|[]]]; eexists; [left|right; left]; reflexivity).
    destruct X as (mode & X). destruct (P mode o X) as (m1 & E1 & S). rewrite S.
    destruct (lC37 debug (block ++ repeat x00 24) 0 o 8 mode) as (m2 & E2 & _ & Q & _); [mem_ok| |reflexivity|right; destruct Ho as [<-|[<-|[]]]; mem_ok|].
    { destruct Ho as [<-|[<-|[]]]; mem_ok. }
    assert (m1 = m2) as -> by congruence. rewrite first_of in Q by exact L. apply one_block in Q as (Q & LQ); [|exact L|lia].
    rewrite (dec1 _ LQ), Q. cbn [bind]. apply same_ok. reflexivity.
Qed.
Lemma whole8 : slice block 0 4 ++ slice block 4 4 = block.
Proof. pose proof (slice_app_split _ block 0 4 4 ltac:(lia) ltac:(lia) ltac:(lia)) as H. rewrite <- (slice_all' block 8 L) at 3. symmetry. exact H. Qed.
Lemma fuzz_bc1_in_place_ok : fuzz_bc1_normalize_in_place block = Ok tt.
Proof.
  unfold fuzz_bc1_normalize_in_place. rewrite (dec1 block L). cbn [bind]. apply each_ok. intros mode _. rewrite whole8.
  destruct (lC37_split_picture block 0 4 1 mode) as (m & E & (LM & _) & P).
  { split; [|constructor; [constructor; [cbn; lia|constructor]|constructor; constructor]]. intros p w [X|[X|[]]]; injection X as <- <-; unfold within; lia. }
  rewrite E. cbn [bind]. destruct (P 0 ltac:(lia)) as (Q & _). cbn [gather flat_map] in Q. rewrite !Z.mul_0_r, !Z.add_0_r, !app_nil_r in Q.
  rewrite whole8 in Q. rewrite dec1; [|rewrite zlen_app, !zlen_slice; lia]. cbn [bind]. apply same_ok. symmetry. exact Q.
Qed.
End Eight.

Section Sixteen.
Hypothesis L : zlen block = 16.
Lemma z16 : forall k, (16 * Z.of_nat k <= zlen (repeat x00 (16 * k))).
Proof. intros k. rewrite NormLoop.zlen_repeat. lia. Qed.
Lemma bc2_one : forall mode z o, 16 <= o -> o + 16 <= 16 + zlen z ->
  exists m, bc2_normalize_blocks debug 0 o 16 mode (block ++ z) = Ok m /\ decode_bc2_block (slice m o 16) = Ok (picture bc2_pixel block).
Proof.
  intros mode z o HO HZ. destruct (lC38 debug (block ++ z) 0 o 16) as (B2 & _); [mem_ok|mem_ok|reflexivity|right; mem_ok|].
  destruct (B2 mode) as (m & E & _ & P & _).
  exists m. split; [exact E|]. rewrite first_of in P by exact L. apply one_block in P as (P & LY); [|exact L|lia]. rewrite (dec2 _ LY), P. reflexivity.
Qed.
Lemma bc3_one : forall amode mode z o, 16 <= o -> o + 16 <= 16 + zlen z ->
  exists m, bc3_normalize_blocks debug 0 o 16 amode mode (block ++ z) = Ok m /\ decode_bc3_block (slice m o 16) = Ok (picture bc3_pixel block).
Proof.
  intros amode mode z o HO HZ. destruct (lC38 debug (block ++ z) 0 o 16) as (_ & B3); [mem_ok|mem_ok|reflexivity|right; mem_ok|].
  destruct (B3 amode mode) as (m & E & _ & P & _).
  exists m. split; [exact E|]. rewrite first_of in P by exact L. apply one_block in P as (P & LY); [|exact L|lia]. rewrite (dec3 _ LY), P. reflexivity.
Qed.
Lemma fuzz_bc2_normalize_ok : fuzz_bc2_normalize debug block = Ok tt.
Proof.
  unfold fuzz_bc2_normalize. destruct (skipped block); [reflexivity|]. rewrite (dec2 block L). cbn [bind].
  destruct (bc2_one Color0Only (repeat x00 16) 16) as (m & E & D); [lia|rewrite NormLoop.zlen_repeat; lia|]. rewrite E. cbn [bind]. rewrite D. cbn [bind]. rewrite same_ok by reflexivity. cbn [bind].
  destruct (bc2_one ReplicateColor (repeat x00 16) 16) as (m2 & E2 & D2); [lia|rewrite NormLoop.zlen_repeat; lia|]. rewrite E2. cbn [bind]. rewrite D2. cbn [bind]. apply same_ok. reflexivity.
Qed.
Lemma fuzz_bc2_all_ok : fuzz_bc2_normalize_all_modes debug block = Ok tt.
Proof.
  unfold fuzz_bc2_normalize_all_modes. destruct (skipped block); [reflexivity|]. rewrite (dec2 block L). cbn [bind].
  destruct (lC39_bc2_same debug (block ++ repeat x00 48) 0 16 16 32 48) as (m & E & _ & P); try mem_ok; try reflexivity; try (right; mem_ok).
  rewrite E. cbn [bind]. apply each_ok. intros o Ho.
  assert (X : exists mode, In (mode, o) [(CNone, 16); (Color0Only, 32); (ReplicateColor, 48)]) by (destruct Ho as [<-|[<-|[<-|[]]]]; eexists; [left|right; left|right; right; left]; reflexivity).
  destruct X as (mode & X). destruct (P mode o X) as (m1 & E1 & S). rewrite S.
  destruct (bc2_one mode (repeat x00 48) o) as (m2 & E2 & D); [destruct Ho as [<-|[<-|[<-|[]]]]; lia|rewrite NormLoop.zlen_repeat; destruct Ho as [<-|[<-|[<-|[]]]]; lia|].
  assert (m1 = m2) as -> by congruence. rewrite D. cbn [bind]. apply same_ok. reflexivity.
Qed.
Lemma whole16 : slice block 0 8 ++ slice block 8 4 ++ slice block 12 4 = block.
Proof.
  pose proof (slice_app_split _ block 0 8 8 ltac:(lia) ltac:(lia) ltac:(lia)) as H. pose proof (slice_app_split _ block 8 4 4 ltac:(lia) ltac:(lia) ltac:(lia)) as H2.
  rewrite <- (slice_all' block 16 L) at 4. change (16) with (8 + 8). rewrite H. f_equal. symmetry. exact H2.
Qed.
Lemma whole16' : slice block 0 2 ++ slice block 2 6 ++ slice block 8 4 ++ slice block 12 4 = block.
Proof.
  rewrite <- whole16 at 5. pose proof (slice_app_split _ block 0 2 6 ltac:(lia) ltac:(lia) ltac:(lia)) as H. change (2 + 6) with 8 in H. rewrite H, <- app_assoc. reflexivity.
Qed.
Lemma fuzz_bc2_in_place_ok : fuzz_bc2_normalize_in_place block = Ok tt.
Proof.
  unfold fuzz_bc2_normalize_in_place. destruct (skipped block); [reflexivity|]. rewrite (dec2 block L). cbn [bind]. apply each_ok. intros mode _. rewrite whole16.
  destruct (lC38_split_picture_bc2 block 0 8 12 1 mode) as (m & E & (LM & _) & P).
  { split; [|repeat (constructor; [repeat (constructor; [cbn; lia|]); constructor|]); constructor]. intros p w [X|[X|[X|[]]]]; injection X as <- <-; unfold within; lia. }
  rewrite E. cbn [bind]. destruct (P 0 ltac:(lia)) as (Q & _). cbn [gather flat_map] in Q. rewrite !Z.mul_0_r, !Z.add_0_r, !app_nil_r in Q.
  rewrite whole16 in Q. rewrite dec2; [|rewrite !zlen_app, !zlen_slice; lia]. cbn [bind]. apply same_ok. symmetry. exact Q.
Qed.
Lemma fuzz_bc3_normalize_ok : fuzz_bc3_normalize debug block = Ok tt.
Proof.
  unfold fuzz_bc3_normalize. destruct (skipped block); [reflexivity|]. rewrite (dec3 block L). cbn [bind]. apply each_ok. intros am _. apply each_ok. intros cm _.
  destruct (bc3_one am cm (repeat x00 16) 16) as (m & E & D); [lia|rewrite NormLoop.zlen_repeat; lia|]. rewrite E. cbn [bind]. rewrite D. cbn [bind]. apply same_ok. reflexivity.
Qed.
Lemma fuzz_bc3_all_ok : fuzz_bc3_normalize_all_modes debug block = Ok tt.
Proof.
  unfold fuzz_bc3_normalize_all_modes. destruct (skipped block); [reflexivity|]. rewrite (dec3 block L). cbn [bind].
  assert (TB : forall o, In o twelve_buffers -> 16 <= o /\ o + 16 <= 208).
  { apply Forall_forall. unfold twelve_buffers. cbn [zseq map]. repeat (constructor; [lia|]). constructor. }
  destruct (lC39_bc3_same debug (block ++ repeat x00 192) 0 16 twelve_buffers) as (m & E & _ & P); [mem_ok|reflexivity|reflexivity| | |].
  { intros o Ho. specialize (TB o Ho). split; mem_ok. }
  { unfold twelve_buffers. cbn [zseq map]. unfold apart. repeat (constructor; [repeat (constructor; [lia|]); constructor|]). constructor. }
  rewrite E. cbn [bind]. apply each_ok. intros o Ho.
  assert (X : exists am cm, In (am, cm, o) (combine all_norms twelve_buffers)).
  { revert Ho. change twelve_buffers with (map snd (combine all_norms twelve_buffers)) at 1. intros Ho. apply in_map_iff in Ho as ([[am cm] o'] & <- & X). exists am, cm. exact X. }
  destruct X as (am & cm & X). destruct (P am cm o X) as (m1 & E1 & S). rewrite S. destruct (TB o Ho) as (T1 & T2).
  destruct (bc3_one am cm (repeat x00 192) o) as (m2 & E2 & D); [exact T1|rewrite NormLoop.zlen_repeat; lia|].
  assert (m1 = m2) as -> by congruence. rewrite D. cbn [bind]. apply same_ok. reflexivity.
Qed.
Lemma fuzz_bc3_in_place_ok : fuzz_bc3_normalize_in_place block = Ok tt.
Proof.
  unfold fuzz_bc3_normalize_in_place. rewrite (dec3 block L). cbn [bind]. apply each_ok. intros am _. apply each_ok. intros cm _. rewrite whole16'.
  destruct (lC38_split_picture_bc3 block 0 2 8 12 1 am cm) as (m & E & (LM & _) & P).
  { split; [|repeat (constructor; [repeat (constructor; [cbn; lia|]); constructor|]); constructor]. intros p w [X|[X|[X|[X|[]]]]]; injection X as <- <-; unfold within; lia. }
  rewrite E. cbn [bind]. destruct (P 0 ltac:(lia)) as (Q & _). cbn [gather flat_map] in Q. rewrite !Z.mul_0_r, !Z.add_0_r, !app_nil_r in Q.
  rewrite whole16' in Q. rewrite dec3; [|rewrite !zlen_app, !zlen_slice; lia]. cbn [bind]. apply same_ok. symmetry. exact Q.
Qed.
End Sixteen.
End Blocks.

(** The colours of a BC2 or BC3 block are those of a BC1 block, in the mode with
    four colours. *)
Lemma colour_same : forall block i a, zlen block = 16 -> skipped block = false -> with_alpha (bc1_pixel (slice block 8 8) i) a = colour_of block i a.
Proof.
  intros block i a L SK. unfold zlen in L.
  do 16 (destruct block as [|? block]; [exfalso; cbn [List.length] in L; lia|]). destruct block; [|exfalso; cbn [List.length] in L; lia].
  unfold skipped, greater_than, u16_at in SK. apply negb_false_iff in SK.
  change ((b2z b9 + 256 * b2z b10 <? b2z b7 + 256 * b2z b8) = true) in SK.
  unfold bc1_pixel, colour_of, slice. change (Z.to_nat 8) with 8%nat. cbn [firstn skipn le].
  replace (b2z b9 + 256 * (b2z b10 + 256 * 0) <? b2z b7 + 256 * (b2z b8 + 256 * 0)) with true by (symmetry; apply Z.ltb_lt; apply Z.ltb_lt in SK; lia).
  unfold opaque. destruct (four_colours _ _ _) as [[r g] b']. reflexivity.
Qed.
Lemma color_only_ok : forall block, zlen block = 16 -> fuzz_bc2_decode_color_only block = Ok tt.
Proof.
  intros block L. unfold fuzz_bc2_decode_color_only. destruct (skipped block) eqn:SK; [reflexivity|].
  rewrite dec1 by (rewrite zlen_slice; lia). rewrite (dec2 block L). cbn [bind]. apply each_ok. intros x Hx.
  assert (Hx' : (Z.to_nat x < 16)%nat).
  { revert x Hx. apply Forall_forall. cbn [zseq]. repeat (constructor; [lia|]). constructor. }
  unfold picture. rewrite !(nth_indep _ blank (bc1_pixel (slice block 8 8) 0)) by (rewrite map_length, seq_length; exact Hx').
  rewrite map_nth, seq_nth by exact Hx'. cbn [Nat.add].
  rewrite (nth_indep (map (bc2_pixel block) _) _ (bc2_pixel block 0)) by (rewrite map_length, seq_length; exact Hx').
  rewrite map_nth, seq_nth by exact Hx'. cbn [Nat.add]. unfold bc2_pixel.
  rewrite <- (colour_same block (Z.to_nat x) _ L SK). cbn [with_alpha c_r c_g c_b]. rewrite !Z.eqb_refl. reflexivity.
Qed.
Section References.
Variables rgbcx_bc1 bcdec_bc2 rgbcx_bc3 : list byte -> list color8888.
Lemma decode1_iff : forall block, zlen block = 8 -> fuzz_bc1_decode rgbcx_bc1 block = Ok tt <-> rgbcx_bc1 block = picture bc1_pixel block.
Proof. intros block L. unfold fuzz_bc1_decode. rewrite (dec1 block L). cbn [bind]. rewrite same_iff. split; auto. Qed.
Lemma decode3_iff : forall block, zlen block = 16 -> fuzz_bc3_decode rgbcx_bc3 block = Ok tt <-> (skipped block = false -> rgbcx_bc3 block = picture bc3_pixel block).
Proof.
  intros block L. unfold fuzz_bc3_decode. destruct (skipped block); [split; [discriminate|reflexivity]|]. rewrite (dec3 block L). cbn [bind]. rewrite same_iff. split; [intros X _; symmetry; exact X|intros X; symmetry; exact (X eq_refl)].
Qed.
Lemma decode2_ok : (forall b, zlen b = 8 -> rgbcx_bc1 b = picture bc1_pixel b) ->
  forall block, zlen block = 16 -> (fuzz_bc2_decode rgbcx_bc1 bcdec_bc2 block = Ok tt <->
    (skipped block = false -> firstn 16 (map c_a (bcdec_bc2 block)) = map c_a (picture bc2_pixel block))).
Proof.
  intros R1 block L. unfold fuzz_bc2_decode. destruct (skipped block) eqn:SK; [split; [discriminate|reflexivity]|]. rewrite (dec2 block L). cbn [bind]. rewrite same_iff.
  unfold hybrid_decode_bc2. rewrite R1 by (rewrite zlen_slice; lia).
  assert (G : forall n k (l : list color8888),
    map (bc2_pixel block) (seq k n) = map (fun p => with_alpha (fst p) (c_a (snd p))) (combine (map (bc1_pixel (slice block 8 8)) (seq k n)) l) <->
    firstn n (map c_a l) = map c_a (map (bc2_pixel block) (seq k n))).
  { clear rgbcx_bc3 R1. induction n as [|n IH]; intros k l; [cbn; split; reflexivity|]. cbn [seq map]. destruct l as [|q l]; [cbn; split; discriminate|].
    cbn [combine map firstn fst snd]. rewrite (colour_same block k _ L SK). specialize (IH (Datatypes.S k) l).
    assert (A : forall a, c_a (colour_of block k a) = a) by (intros a; unfold colour_of; destruct (four_colours _ _ _) as [[r g] b']; reflexivity).
    change (bc2_pixel block k) with (colour_of block k (17 * bits (le (firstn 8 block)) 4 k)). rewrite A. split.
    - intros E. injection E as E1 E2. f_equal; [|apply IH; exact E2]. apply (f_equal c_a) in E1. rewrite !A in E1. symmetry. exact E1.
    - intros E. injection E as E1 E2. f_equal; [rewrite E1; reflexivity|apply IH; exact E2]. }
  unfold picture. rewrite (G 16%nat 0%nat (bcdec_bc2 block)). split; [intros X _; exact X|intros X; exact (X eq_refl)].
Qed.
End References.
Lemma skipped_iff : forall block, zlen block = 16 -> skipped block = true <-> le (slice block 8 2) <= le (slice block 10 2).
Proof.
  intros block L. unfold zlen in L.
  do 16 (destruct block as [|? block]; [exfalso; cbn [List.length] in L; lia|]). destruct block; [|exfalso; cbn [List.length] in L; lia].
  unfold skipped, greater_than, u16_at. rewrite negb_true_iff.
  change ((b2z b9 + 256 * b2z b10 <? b2z b7 + 256 * b2z b8) = false <-> b2z b7 + 256 * (b2z b8 + 256 * 0) <= b2z b9 + 256 * (b2z b10 + 256 * 0)).
  rewrite Z.ltb_ge. split; intros H; lia.
Qed.
