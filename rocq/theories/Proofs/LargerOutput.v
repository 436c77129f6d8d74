(** DDS files and output buffers longer than the file. *)
From Verif Require Import Base.Bytes Base.Res Model.Color565 Model.Ycc Model.Kernel Model.Transform Model.Auto Model.Builders Model.Embed Model.Bundle Model.Dds
  Model.BigEndian Model.BeTransform Model.BeFiles
  Spec.Layout Spec.BigEndian Spec.Estimator Spec.Header Spec.Files Spec.Dds Spec.Release Proofs.LayoutFacts Proofs.Families Proofs.BeFamilies
  Proofs.SliceFacts Proofs.AutoTheorems Proofs.EmbedFacts Proofs.BundleFacts
  Proofs.DdsFacts Proofs.DdsHandler Proofs.ReleaseFacts Proofs.BeReleaseFacts.
From Coq Require Import ZifyBool ZifyNat.

(** ** The automatic transforms keep the length of the buffer *)
Section Keep.
Context {St Er S : Type}.
Variables (t : S -> mem -> res mem) (P : mem -> Prop).
Hypothesis (TP : forall s m m', P m -> t s m = Ok m' -> P m').
Lemma search_keeps : forall v (e : estimator St Er) n (es : Z -> mem -> St -> res (result Z Er * St)) same default order m st r m' st',
  P m -> search v e n t es same default order m st = Ok (r, m', st') -> P m'.
Proof.
  intros v e n es same default order m st r m' st' H. unfold search.
  destruct (max_compressed_size e st n) as [[z|er] st1]; [|intros Q; congruence].
  destruct (negb (z =? 0) && negb (alloc_ok v z)); [intros Q; congruence|].
  destruct (loop_agree t t (es z) (es z) P (fun s m _ => agree_refl _ _) TP (fun m st _ => agree_refl _ _) order default (usize_max v) default m st1 H) as (_ & LP).
  destruct (search_loop t (es z) order default (usize_max v) default m st1) as [[[[[best last]|er] m1] st2]|w|w] eqn:E; cbn [bind]; try (intros Q; congruence).
  - pose proof (LP _ _ _ eq_refl) as H1. destruct (same best last); [intros Q; congruence|].
    destruct (t best m1) as [m2|w|w] eqn:E2; cbn [bind]; intros Q; try congruence. pose proof (TP _ _ _ H1 E2). congruence.
  - pose proof (LP _ _ _ eq_refl) as H1. intros Q; congruence.
Qed.
End Keep.

Lemma auto_checked_keeps : forall St Er S blk (run : ptr -> ptr -> Z -> mem -> St -> res (result S (determine_error Er) * mem * St)) x out st r y st', 0 < blk ->
  (forall N m' r st', 0 <= N -> zlen x = blk * N -> zlen x <= zlen out ->
     run (Ptr BIn 0) (Ptr BOut 0) (blk * N) (Mem x [] out) st = Ok (r, m', st') -> zlen (m_out m') = zlen out) ->
  auto_checked blk run x out st = Ok (r, y, st') -> zlen y = zlen out.
Proof.
  intros St Er S blk run x out st r y st' Hb H. unfold auto_checked.
  destruct (zlen x mod blk =? 0) eqn:M; cbn [negb]; [|intros Q; congruence].
  destruct (zlen out <? zlen x) eqn:L; [intros Q; congruence|].
  pose proof (zlen_nonneg _ x). assert (E : zlen x = blk * (zlen x / blk)) by (pose proof (Z.div_mod (zlen x) blk ltac:(lia)); lia).
  destruct (run _ _ _ _ _) as [[[r1 m1] st1]|w|w] eqn:R; cbn [bind fst snd]; try (intros Q; congruence).
  rewrite E in R. assert (Z : zlen (m_out m1) = zlen out) by (exact (H (zlen x / blk) m1 r1 st1 ltac:(apply Z.div_pos; lia) E ltac:(lia) R)).
  destruct r1; intros Q; congruence.
Qed.

Definition room (a n : Z) (m : mem) : Prop := a <= zlen (m_in m) /\ a <= zlen (m_out m) /\ zlen (m_out m) = n.
Lemma room_kept : forall m (y : list byte) a n, room a n m -> zlen y <= a -> room a n (Mem (m_in m) (m_aux m) (splice (m_out m) 0 y)).
Proof.
  intros m y a n (A & B & C) L. assert (Z : zlen (splice (m_out m) 0 y) = zlen (m_out m)) by (apply zlen_splice; lia).
  unfold room. cbn [m_in m_out]. rewrite Z. repeat split; assumption.
Qed.

Section Autos.
Context {St Er : Type}.
Variables (c : cfg) (v : Auto.env) (e : estimator St Er) (all : bool) (x out : list byte) (st st' : St) (r : result settings (auto_error Er)) (y : list byte).
Hypothesis (K : supported c).
Let c' := release_build c.
Lemma keep1 : transform_bc1_auto c' v e all x out st = Ok (r, y, st') -> zlen y = zlen out.
Proof.
  apply auto_checked_keeps; [lia|]. intros N m' r' st1 HN E LE Q. unfold transform_bc1_auto_ptr in Q.
  apply (search_keeps _ (room (8 * N) (zlen out))) in Q; [apply Q| |unfold room; cbn [m_in m_out]; lia].
  intros s m m1 (A & B & C) Q1. unfold c' in Q1. rewrite (release1 c m N (proj1 K) HN s A B) in Q1. apply ok_inj in Q1. subst m1. apply room_kept; [repeat split; assumption|].
  destruct (bc1_fam (decorrelation_mode s) (split_colour_endpoints s)) as (sht & shu & FM).
  unfold bc1_layout, zlen. rewrite (fam_len _ _ _ _ _ _ FM ltac:(lia)) by (apply (whole_blocks 8); [lia|reflexivity|lia..]).
  pose proof (zlen_slice _ (m_in m) 0 (8 * N)) as Z. unfold zlen in Z at 2. lia.
Qed.
Lemma keep2 : transform_bc2_auto c' v e all x out st = Ok (r, y, st') -> zlen y = zlen out.
Proof.
  apply auto_checked_keeps; [lia|]. intros N m' r' st1 HN E LE Q. unfold transform_bc2_auto_ptr in Q.
  apply (search_keeps _ (room (16 * N) (zlen out))) in Q; [apply Q| |unfold room; cbn [m_in m_out]; lia].
  intros s m m1 (A & B & C) Q1. unfold c' in Q1. rewrite (release2 c m N (proj1 K) HN s (vl_of c K) A B) in Q1. apply ok_inj in Q1. subst m1. apply room_kept; [repeat split; assumption|].
  destruct (bc2_fam (decorrelation_mode s) (split_colour_endpoints s)) as (sht & shu & FM).
  unfold bc2_layout, zlen. rewrite (fam_len _ _ _ _ _ _ FM ltac:(lia)) by (apply (whole_blocks 16); [lia|reflexivity|lia..]).
  pose proof (zlen_slice _ (m_in m) 0 (16 * N)) as Z. unfold zlen in Z at 2. lia.
Qed.
End Autos.

Lemma core_keeps : forall k c s x out r y, supported c -> core_transform k (release_build c) s x out = Ok (r, y) -> zlen y = zlen out.
Proof.
  intros k c s x out r y K. destruct (zlen x mod codec_block k =? 0) eqn:Z.
  - destruct (zlen out <? zlen x) eqn:L.
    + destruct k; cbn [core_transform codec_block] in *; unfold transform_bc1, transform_bc2, checked; rewrite Z, L; cbn [negb]; intros Q; congruence.
    + rewrite core_transform_ok; [|exact (release_supported c K)|intros D; discriminate D|lia|lia]. intros Q. apply ok_inj in Q.
      assert (Y : y = texture_layout k s x ++ skipn (List.length x) out) by congruence. subst y. rewrite zlen_app. unfold zlen in *. rewrite skipn_length, layout_len by (unfold zlen; lia). lia.
  - destruct k; cbn [core_transform codec_block] in *; unfold transform_bc1, transform_bc2, checked; rewrite Z; cbn [negb]; intros Q; congruence.
Qed.
Lemma dispatch_keeps : forall St Er (show : Er -> string) c v (t : bundle St Er) f x out st r y st', supported c ->
  dispatch_transform show (release_build c) v t f x out st = Ok (r, y, st') -> zlen y = zlen out.
Proof.
  intros St Er show c v t f x out st r y st' K. unfold dispatch_transform. destruct (zlen out <? zlen x); [intros Q; congruence|]. cbv zeta.
  assert (D : forall k b r y st', transform_slice_with_details show k (release_build c) v b x out st = Ok (r, y, st') -> zlen y = zlen out).
  { intros k [b|b] r1 y1 st1; unfold transform_slice_with_details; cbv zeta.
    - unfold manual_transform. destruct (core_transform k (release_build c) (mb_settings b) x out) as [[r2 y2]|w|w] eqn:E; cbn [bind fst snd]; try (intros Q; congruence).
      apply core_keeps in E; [|exact K]. destruct (map_err from_validation_error r2); intros Q; congruence.
    - unfold auto_transform. destruct (core_auto k (release_build c) v (ab_estimator b) (ab_use_all b) x out st) as [[[r2 y2] st2]|w|w] eqn:E; cbn [bind]; try (intros Q; congruence).
      assert (Z : zlen y2 = zlen out) by (destruct k; cbn [core_auto] in E; [exact (keep1 _ _ _ _ _ _ _ _ _ _ K E)|exact (keep2 _ _ _ _ _ _ _ _ _ _ K E)]).
      destruct r2; cbn [bind]; intros Q; congruence. }
  destruct f; try (intros Q; congruence); [destruct (b_bc1 t) as [b|]|destruct (b_bc2 t) as [b|]]; try (intros Q; congruence);
  [destruct (transform_slice_with_details show CBc1 (release_build c) v b x out st) as [[[r2 y2] st2]|w|w] eqn:E
  |destruct (transform_slice_with_details show CBc2 (release_build c) v b x out st) as [[[r2 y2] st2]|w|w] eqn:E]; cbn [bind]; try (intros Q; congruence);
  apply D in E; destruct r2; intros Q; congruence.
Qed.
Lemma dispatch_keeps_any : forall St Er (show : Er -> string) c v (t : bundle St Er) f x out st r y st', supported c ->
  dispatch_transform show c v t f x out st = Ok (r, y, st') -> zlen y = zlen out.
Proof.
  intros St Er show c v t f x out st r y st' K E. destruct (dispatch_agree St Er show c v t f x out st K) as [A|(w & A)]; [|congruence].
  rewrite A in E. exact (dispatch_keeps _ _ _ _ _ _ _ _ _ _ _ _ _ K E).
Qed.
Lemma undispatch_keeps : forall c h x out r y, supported c -> dispatch_untransform c h x out = Ok (r, y) -> zlen y = zlen out.
Proof.
  intros c h x out r y K E. destruct (undispatch_agree c h x out (proj1 K)) as [A|(w & A)]; [|congruence]. rewrite A in E.
  destruct (Z_lt_le_dec (zlen out) (zlen x)) as [L|L].
  - unfold dispatch_untransform in E. replace (zlen out <? zlen x) with true in E by lia. congruence.
  - destruct (undispatch_total (release_build c) h x out (release_supported c K) ltac:(intros D; discriminate D) L) as (r1 & o1 & E1 & Z). congruence.
Qed.

(** ** Longer outputs *)
Definition mismatch : string := "source slice length does not match destination slice length".
Lemma copy_longer : forall (a b d extra : list byte) off e, zlen a = off -> zlen b = zlen d -> off + zlen b + zlen extra = e -> 0 < zlen extra ->
  copy_range (a ++ b ++ extra) off e d = Panic mismatch.
Proof.
  intros a b d extra off e Ha Hb He Hx. unfold copy_range. rewrite range_tail by (rewrite ?zlen_app; lia). cbn [bind].
  rewrite zlen_app. pose proof (zlen_nonneg _ b). replace (zlen b + zlen extra =? zlen d) with false by lia. reflexivity.
Qed.
Lemma header_over : forall h (a extra : list byte), 4 <= zlen a -> write_to_ptr h (a ++ extra) 0 = write_to_ptr h a 0 ++ extra.
Proof.
  intros h a extra L. unfold write_to_ptr. destruct a as [|b0 [|b1 [|b2 [|b3 rest]]]]; try (unfold zlen in L; cbn [List.length] in L; lia).
  change (u32_bytes h) with [lo8 h; lo8 (h / 2 ^ 8); lo8 (h / 2 ^ 16); lo8 (h / 2 ^ 24)] || idtac. reflexivity.
Qed.

Section Longer.
Context {St : Type}.
Variables (D : list byte -> list byte -> St -> res (result header transform_error * list byte * St)).
Hypothesis (KEEP : forall T oT st r y st', D T oT st = Ok (r, y, st') -> zlen y = zlen oT).
Definition rest_of (H T R oT oR : list byte) (st : St) : res (result unit transform_error * list byte * St) :=
  do r <- D T oT st ;;
  match r with
  | (RErr e, target, st) => Ok (RErr e, splice (H ++ oT ++ oR) (zlen H) target, st)
  | (ROk h, target, st) =>
      do output <-
        (if 0 <? zlen R
         then copy_range (splice (H ++ oT ++ oR) (zlen H) target) (zlen H + zlen T) (zlen (splice (H ++ oT ++ oR) (zlen H) target)) R
         else Ok (splice (H ++ oT ++ oR) (zlen H) target)) ;;
      Ok (ROk tt, write_to_ptr h output 0, st)
  end.
Lemma rest_longer : forall H T R oT oR extra st, 4 <= zlen H -> zlen oT = zlen T -> zlen oR = zlen R ->
  rest_of H T R oT (oR ++ extra) st =
  match rest_of H T R oT oR st with
  | Ok (ROk u, y, st1) => if (0 <? zlen R) && (0 <? zlen extra) then Panic mismatch else Ok (ROk u, y ++ extra, st1)
  | Ok (RErr e, y, st1) => Ok (RErr e, y ++ extra, st1)
  | r => r
  end.
Proof.
  intros H T R oT oR extra st HH LT LR. unfold rest_of.
  destruct (D T oT st) as [[[[h|e] target] st1]|w|w] eqn:E; cbn [bind]; try reflexivity.
  - apply KEEP in E. assert (E' : List.length oT = List.length target) by (apply zlen_eq; lia). rewrite !splice_mid by (try reflexivity; exact E').
    pose proof (zlen_nonneg _ R). pose proof (zlen_nonneg _ extra). pose proof (zlen_nonneg _ target).
    destruct (0 <? zlen R) eqn:ZR; cbn [bind andb].
    + assert (C : copy_range (H ++ target ++ oR) (zlen H + zlen T) (zlen (H ++ target ++ oR)) R = Ok (H ++ target ++ R)).
      { rewrite app_assoc, copy_tail by (rewrite ?zlen_app; lia). rewrite <- app_assoc. reflexivity. }
      rewrite C. cbn [bind]. destruct (0 <? zlen extra) eqn:ZE.
      * rewrite (app_assoc H target). rewrite (copy_longer (H ++ target) oR R extra) by (rewrite ?zlen_app; lia). reflexivity.
      * destruct extra as [|b q]; [|unfold zlen in ZE; cbn [List.length] in ZE; lia]. rewrite !app_nil_r, C. reflexivity.
    + cbn [bind]. rewrite !app_assoc, header_over; [rewrite <- !app_assoc; reflexivity|]. rewrite !zlen_app. lia.
  - apply KEEP in E. assert (E' : List.length oT = List.length target) by (apply zlen_eq; lia). rewrite !splice_mid by (try reflexivity; exact E').
    rewrite !app_assoc. reflexivity.
Qed.
End Longer.

(** Do bytes follow the texture? *)
Definition trailing (p : res (option dds_info)) (x : list byte) : bool :=
  match p with Ok (Some i) => i_data_offset i + i_data_length i <? zlen x | _ => false end.

Lemma transform_longer : forall St Er (show : Er -> string) c v (t : bundle St Er) x out extra st, supported c -> 2 ^ 32 + 147 <= usize_max v -> zlen out = zlen x ->
  dds_transform_bundle show c v t x (out ++ extra) st =
  match dds_transform_bundle show c v t x out st with
  | Ok (ROk u, y, st1) => if trailing (parse_dds (c_debug c) x) x && (0 <? zlen extra) then Panic mismatch else Ok (ROk u, y ++ extra, st1)
  | Ok (RErr e, y, st1) => Ok (RErr e, y ++ extra, st1)
  | r => r
  end.
Proof.
  intros St Er show c v t x out extra st K U L. pose proof (zlen_nonneg _ extra) as LX.
  destruct (parse_dds (c_debug c) x) as [[i|]|w|w] eqn:P.
  2,3,4: unfold dds_transform_bundle; rewrite zlen_app; replace (zlen out + zlen extra <? zlen x) with false by lia;
    replace (zlen out <? zlen x) with false by lia; rewrite P; reflexivity.
  cbn [trailing].
  destruct (parse_facts _ _ _ (proj2 (parse_dds_facts _ _ _ P))) as (_ & _ & _ & _ & Hn & Ho & Hx).
  destruct (Z_lt_le_dec (zlen x) (i_data_offset i + i_data_length i)) as [Lt|Le].
  - unfold dds_transform_bundle; rewrite zlen_app; replace (zlen out + zlen extra <? zlen x) with false by lia;
    replace (zlen out <? zlen x) with false by lia; rewrite P; cbn [bind]. unfold usize_add. replace (_ <=? usize_max v) with true by lia. cbn [bind].
    replace (zlen x <? _) with true by lia. reflexivity.
  - destruct (pieces3 x (i_data_offset i) (i_data_length i) ltac:(lia) ltac:(lia) Le) as (H & T & R & X & LH & LT & LR & _).
    destruct (pieces3 out (i_data_offset i) (i_data_length i) ltac:(lia) ltac:(lia) ltac:(lia)) as (oH & oT & oR & O & LoH & LoT & LoR & _).
    replace (i_data_offset i + i_data_length i <? zlen x) with (0 <? zlen R) by lia.
    rewrite X in P. rewrite X, O, <- !app_assoc.
    rewrite (transform_pieces show c v t H T R oH oT (oR ++ extra) st i P) by (rewrite ?zlen_app; lia).
    rewrite (transform_pieces show c v t H T R oH oT oR st i P) by lia.
    destruct (dds_format_to_transform_format (i_format i) false) as [f|e]; [|rewrite !app_assoc; reflexivity].
    refine (rest_longer (fun T oT st => dispatch_transform show c v t f T oT st) _ H T R oT oR extra st ltac:(lia) ltac:(lia) ltac:(lia)).
    intros T0 oT0 st0 r y st1 E. exact (dispatch_keeps_any _ _ _ _ _ _ _ _ _ _ _ _ _ K E).
Qed.

Lemma untransform_longer : forall c v x out extra, supported c -> 2 ^ 32 + 147 <= usize_max v -> zlen out = zlen x ->
  dds_untransform c v x (out ++ extra) =
  match dds_untransform c v x out with
  | Ok (ROk u, y) => if trailing (parse_dds_ignore_magic (c_debug c) x) x && (0 <? zlen extra) then Panic mismatch else Ok (ROk u, y ++ extra)
  | Ok (RErr e, y) => Ok (RErr e, y ++ extra)
  | r => r
  end.
Proof.
  intros c v x out extra K U L. pose proof (zlen_nonneg _ extra) as LX.
  destruct (Z_lt_le_dec (zlen x) 4) as [S|S]; [unfold dds_untransform; replace (zlen x <? 4) with true by lia; reflexivity|].
  destruct (parse_dds_ignore_magic (c_debug c) x) as [[i|]|w|w] eqn:P.
  2,3,4: unfold dds_untransform; rewrite zlen_app; replace (zlen x <? 4) with false by lia; replace (zlen out + zlen extra <? zlen x) with false by lia;
    replace (zlen out <? zlen x) with false by lia; rewrite P; reflexivity.
  cbn [trailing].
  destruct (parse_facts _ _ _ P) as (_ & _ & _ & _ & Hn & Ho & Hx).
  destruct (Z_lt_le_dec (zlen x) (i_data_offset i + i_data_length i)) as [Lt|Le].
  - unfold dds_untransform; rewrite zlen_app; replace (zlen x <? 4) with false by lia; replace (zlen out + zlen extra <? zlen x) with false by lia;
    replace (zlen out <? zlen x) with false by lia; rewrite P; cbn [bind]. cbv zeta. unfold usize_add. replace (_ <=? usize_max v) with true by lia. cbn [bind].
    replace (zlen x <? _) with true by lia. reflexivity.
  - destruct (pieces4 x (i_data_offset i) (i_data_length i) ltac:(lia) ltac:(lia) Le) as (M & H & T & R & X & LM & LH & LT & LR & _).
    destruct (pieces4 out (i_data_offset i) (i_data_length i) ltac:(lia) ltac:(lia) ltac:(lia)) as (oM & oH & oT & oR & O & LoM & LoH & LoT & LoR & _).
    replace (i_data_offset i + i_data_length i <? zlen x) with (0 <? zlen R) by lia.
    rewrite X in P. rewrite X, O, <- !app_assoc.
    rewrite (untransform_pieces c v M H T R oM oH oT (oR ++ extra) i P) by (rewrite ?zlen_app; lia).
    rewrite (untransform_pieces c v M H T R oM oH oT oR i P) by lia.
    destruct (dispatch_untransform c (word (M ++ H ++ T ++ R) 0) T oT) as [[[u|e] target]|w|w] eqn:E; cbn [bind]; try reflexivity; cbv zeta;
      apply undispatch_keeps in E; try exact K; assert (E' : List.length oT = List.length target) by (apply zlen_eq; lia);
      pose proof (zlen_nonneg _ R); pose proof (zlen_nonneg _ target); set (m4 := u32_bytes DDS_MAGIC); assert (L4 : zlen m4 = 4) by reflexivity;
      rewrite !(app_assoc m4 H), !splice_mid by (rewrite ?zlen_app; first [lia | exact E']).
    + destruct (0 <? zlen R) eqn:ZR; cbn [bind andb]; [|rewrite !app_assoc; reflexivity].
      assert (C : copy_range ((m4 ++ H) ++ target ++ oR) (4 + zlen H + zlen T) (zlen ((m4 ++ H) ++ target ++ oR)) R = Ok ((m4 ++ H) ++ target ++ R)).
      { rewrite app_assoc, copy_tail by (rewrite ?zlen_app; lia). rewrite <- app_assoc. reflexivity. }
      rewrite C. cbn [bind]. destruct (0 <? zlen extra) eqn:ZE.
      * rewrite (app_assoc (m4 ++ H) target). rewrite (copy_longer ((m4 ++ H) ++ target) oR R extra) by (rewrite ?zlen_app; lia). reflexivity.
      * destruct extra as [|b q]; [|unfold zlen in ZE; cbn [List.length] in ZE; lia]. rewrite !app_nil_r, C. reflexivity.
    + rewrite !app_assoc. reflexivity.
Qed.

(** ** Machines whose addresses are short *)
Lemma untransform_wide : forall c v1 v2 x out, (forall i, parse_dds_ignore_magic (c_debug c) x = Ok (Some i) -> i_data_offset i + i_data_length i <= usize_max v1 /\ i_data_offset i + i_data_length i <= usize_max v2) ->
  dds_untransform c v1 x out = dds_untransform c v2 x out.
Proof.
  intros c v1 v2 x out H. unfold dds_untransform. destruct (zlen x <? 4); [reflexivity|]. destruct (zlen out <? zlen x); [reflexivity|]. cbv zeta.
  destruct (parse_dds_ignore_magic (c_debug c) x) as [[i|]|w|w] eqn:P; cbn [bind]; try reflexivity.
  destruct (H i eq_refl) as (A & B). unfold usize_add. replace (_ <=? usize_max v1) with true by lia. replace (_ <=? usize_max v2) with true by lia. reflexivity.
Qed.
Lemma untransform_narrow : forall c v x out i, 2 ^ 32 - 1 <= usize_max v -> zlen x <= zlen out ->
  parse_dds_ignore_magic (c_debug c) x = Ok (Some i) -> usize_max v < i_data_offset i + i_data_length i -> exists why, dds_untransform c v x out = Panic why.
Proof.
  intros c v x out i U L P N. destruct (parse_facts _ _ _ P) as (_ & _ & _ & _ & Hn & Ho & Hx).
  unfold dds_untransform. replace (zlen x <? 4) with false by lia. replace (zlen out <? zlen x) with false by lia. cbv zeta. rewrite P. cbn [bind].
  unfold usize_add. replace (_ <=? usize_max v) with false by lia. destruct (c_debug c); [eexists; reflexivity|]. cbn [bind].
  set (e := (i_data_offset i + i_data_length i) mod (usize_max v + 1)).
  assert (E : e = i_data_offset i + i_data_length i - (usize_max v + 1)).
  { unfold e. symmetry. apply (Z.mod_unique _ _ 1); lia. }
  replace (zlen x <? e) with false by lia.
  destruct (copy_range out 0 4 (u32_bytes DDS_MAGIC)) as [o|w|w] eqn:C; cbn [bind]; [|eexists; reflexivity|exfalso; exact (copy_no_ub _ _ _ _ _ C)].
  destruct (range x 4 (i_data_offset i)) as [hd|w|w] eqn:R; cbn [bind]; [|eexists; reflexivity|exfalso; exact (range_no_ub _ _ _ _ R)].
  destruct (copy_range o 4 (i_data_offset i) hd) as [o1|w|w] eqn:C1; cbn [bind]; [|eexists; reflexivity|exfalso; exact (copy_no_ub _ _ _ _ _ C1)].
  unfold range at 1. replace ((0 <=? i_data_offset i) && (i_data_offset i <=? e) && (e <=? zlen x)) with false by lia. eexists; reflexivity.
Qed.
Lemma transform_narrow : forall St Er (show : Er -> string) c v (t : bundle St Er) x out st i, 2 ^ 32 - 1 <= usize_max v -> zlen x <= zlen out ->
  parse_dds (c_debug c) x = Ok (Some i) -> usize_max v < i_data_offset i + i_data_length i ->
  match dds_format_to_transform_format (i_format i) false with
  | ROk _ => exists why, dds_transform_bundle show c v t x out st = Panic why
  | RErr e => if c_debug c then exists why, dds_transform_bundle show c v t x out st = Panic why
    else dds_transform_bundle show c v t x out st = Ok (RErr e, firstn (Z.to_nat (i_data_offset i)) x ++ skipn (Z.to_nat (i_data_offset i)) out, st)
  end.
Proof.
  intros St Er show c v t x out st i U L P N. destruct (parse_facts _ _ _ (proj2 (parse_dds_facts _ _ _ P))) as (_ & _ & _ & _ & Hn & Ho & Hx).
  unfold dds_transform_bundle. replace (zlen out <? zlen x) with false by lia. rewrite P. cbn [bind].
  unfold usize_add. replace (_ <=? usize_max v) with false by lia. destruct (c_debug c); [destruct (dds_format_to_transform_format _ _); eexists; reflexivity|]. cbn [bind].
  set (e := (i_data_offset i + i_data_length i) mod (usize_max v + 1)).
  assert (E : e = i_data_offset i + i_data_length i - (usize_max v + 1)).
  { unfold e. symmetry. apply (Z.mod_unique _ _ 1); lia. }
  replace (zlen x <? e) with false by lia.
  assert (RG : range x 0 (i_data_offset i) = Ok (slice x 0 (i_data_offset i))).
  { unfold range. replace ((0 <=? 0) && (0 <=? i_data_offset i) && (i_data_offset i <=? zlen x)) with true by lia. rewrite Z.sub_0_r. reflexivity. }
  rewrite RG. cbn [bind]. assert (LS : zlen (slice x 0 (i_data_offset i)) = i_data_offset i) by (apply zlen_slice; lia).
  destruct (pieces3 out 0 (i_data_offset i) ltac:(lia) ltac:(lia) ltac:(lia)) as (oH & oT & oR & O & LoH & LoT & LoR & _).
  assert (oH = []) by (destruct oH; [reflexivity|unfold zlen in LoH; cbn [List.length] in LoH; lia]). subst oH. cbn [app] in O.
  rewrite O, copy_head by lia. cbn [bind].
  destruct (dds_format_to_transform_format (i_format i) false) as [f|er].
  - assert (RE : range x (i_data_offset i) e = Panic "slice index out of range").
    { unfold range. replace ((0 <=? i_data_offset i) && (i_data_offset i <=? e) && (e <=? zlen x)) with false by lia. reflexivity. }
    rewrite RE. eexists; reflexivity.
  - repeat f_equal. unfold zlen in LoT. replace (Z.to_nat (i_data_offset i)) with (List.length oT) by lia.
    rewrite skipn_app, skipn_all, Nat.sub_diag. reflexivity.
Qed.
