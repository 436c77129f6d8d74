(** C22, C46 and C47 for big-endian machines: the proofs of Proofs/TransformProps.v over the big-endian layouts. *)
From Verif Require Import Base.Bytes Base.Res Model.Color565 Model.Kernel Model.Transform Model.BeTransform Spec.YCoCg Spec.Layout Spec.BigEndian.
From Verif Require Import Proofs.KernelCheck Proofs.KernelLoop Proofs.KernelFun Proofs.Shapes Proofs.LayoutFacts Proofs.ShapeLayout
  Proofs.Families Proofs.TransformFacts Proofs.SliceFacts Proofs.TransformProps Proofs.BeShapes Proofs.BeFamilies Proofs.BeTransformFacts
  Proofs.BeSliceFacts Proofs.BigEndianFacts Proofs.BigEndianProps.
From Coq Require Import ZifyBool ZifyNat Permutation.

Definition be_ccol (v : variant) (sp : bool) (off k : nat) (x : list byte) : list byte :=
  lay (be_colour_fields v sp off) (blocks k x).
Lemma be_ccol_len : forall v sp off k x, List.length (be_ccol v sp off k x) = (List.length x / k * 4)%nat.
Proof.
  intros v sp off k x. unfold be_ccol, lay, be_colour_fields. destruct sp; cbn [map List.concat]; rewrite ?app_length.
  - rewrite !(col_len 2) by reflexivity. cbn [List.length]. lia.
  - rewrite (col_len 4) by reflexivity. cbn [List.length]. lia.
Qed.
Lemma be_bc1_none : forall sp b, List.length b = 8%nat -> List.concat (map (fun f : field => f b) (be_bc1_fields VNone sp)) = b.
Proof.
  intros sp b H. etransitivity; [|exact (bc1_none sp b H)].
  destruct sp; unfold be_bc1_fields, bc1_fields, be_colour_fields, colour_fields, both; cbn [map app]; rewrite !be_colour_none; reflexivity.
Qed.
Lemma be_bc2_none : forall sp b, List.length b = 16%nat -> List.concat (map (fun f : field => f b) (be_bc2_fields VNone sp)) = b.
Proof.
  intros sp b H. etransitivity; [|exact (bc2_none sp b H)].
  destruct sp; unfold be_bc2_fields, bc2_fields, be_colour_fields, colour_fields, both; cbn [map app]; rewrite !be_colour_none; reflexivity.
Qed.
Lemma be_bc3_none : forall sa sp b, List.length b = 16%nat -> List.concat (map (fun f : field => f b) (be_bc3_fields VNone sa sp)) = b.
Proof.
  intros sa sp b H. etransitivity; [|exact (bc3_none sa sp b H)].
  destruct sa, sp; unfold be_bc3_fields, bc3_fields, be_colour_fields, colour_fields, both; cbn [map app]; rewrite !be_colour_none; reflexivity.
Qed.
Lemma be_bc1_moved : forall v sp x r, (List.length x mod 8 = 0)%nat ->
  slice (be_bc1_layout v sp x ++ r) (zlen x / 2) (zlen x / 2) = List.concat (map (raw 4 4) (blocks 8 x)).
Proof.
  intros v sp x r Hm. unfold be_bc1_layout, be_bc1_fields. rewrite lay_app, lay_one, <- app_assoc.
  pose proof (be_ccol_len v sp 0 8 x) as L. pose proof (cat_len 4 4 8 x ltac:(lia) Hm ltac:(lia)) as L4. unfold be_ccol in L. unfold zlen.
  apply slice_mid; rewrite ?L, ?L4; lia.
Qed.

Lemma be_bc2_moved : forall v sp x r, (List.length x mod 16 = 0)%nat ->
  slice (be_bc2_layout v sp x ++ r) 0 (zlen x / 2) = List.concat (map (raw 0 8) (blocks 16 x)) /\
  slice (be_bc2_layout v sp x ++ r) (zlen x / 2 + zlen x / 4) (zlen x / 4) = List.concat (map (raw 12 4) (blocks 16 x)).
Proof.
  intros v sp x r Hm. unfold be_bc2_layout, be_bc2_fields. rewrite !lay_app, !lay_one, <- !app_assoc.
  pose proof (be_ccol_len v sp 8 16 x) as L. pose proof (cat_len 4 12 16 x ltac:(lia) Hm ltac:(lia)) as L4.
  pose proof (cat_len 8 0 16 x ltac:(lia) Hm ltac:(lia)) as L8. unfold be_ccol in L. unfold zlen.
  split.
  - apply (slice_mid []); cbn [List.length]; rewrite ?L8; lia.
  - rewrite (app_assoc (List.concat (map (raw 0 8) _))). apply slice_mid; rewrite ?app_length, ?L, ?L4, ?L8; lia.
Qed.

Lemma be_bc3_moved : forall v sa sp x r, (List.length x mod 16 = 0)%nat ->
  slice (be_bc3_layout v sa sp x ++ r) (zlen x / 8) (6 * (zlen x / 16)) = List.concat (map (raw 2 6) (blocks 16 x)) /\
  slice (be_bc3_layout v sa sp x ++ r) (zlen x / 2 + zlen x / 4) (zlen x / 4) = List.concat (map (raw 12 4) (blocks 16 x)) /\
  Permutation (slice (be_bc3_layout v sa sp x ++ r) 0 (zlen x / 8)) (List.concat (map (raw 0 2) (blocks 16 x))).
Proof.
  intros v sa sp x r Hm. unfold be_bc3_layout, be_bc3_fields. rewrite !lay_app, !lay_one, <- !app_assoc.
  set (al := lay (if sa then _ else _) _).
  pose proof (be_ccol_len v sp 8 16 x) as L. pose proof (cat_len 4 12 16 x ltac:(lia) Hm ltac:(lia)) as L4.
  pose proof (cat_len 6 2 16 x ltac:(lia) Hm ltac:(lia)) as L6.
  assert (P : Permutation al (List.concat (map (raw 0 2) (blocks 16 x)))).
  { subst al. destruct sa; [rewrite lay_cons|]; rewrite lay_one; [apply perm_interleave|reflexivity]. }
  assert (LA : List.length al = (List.length x / 16 * 2)%nat)
    by (rewrite (Permutation_length P); apply cat_len; first [lia|exact Hm]).
  unfold be_ccol in L. unfold zlen. repeat apply conj.
  - apply slice_mid; rewrite ?LA, ?L6; lia.
  - rewrite !app_assoc, <- (app_assoc _ _ r). apply slice_mid; rewrite ?app_length, ?L, ?L4, ?LA, ?L6; lia.
  - match goal with |- Permutation (slice (al ++ ?r) _ ?n) _ => pose proof (slice_mid [] al r 0 n) as S end.
    cbn [app] in S. rewrite S; [exact P|lia|reflexivity|rewrite LA; lia].
Qed.

Lemma lC22_be_bc1_onto : forall (c1 c2 : cfg) (s : settings) (y out1 out2 : list byte),
  cpu_ok c1 -> cpu_ok c2 -> zlen y mod 8 = 0 -> zlen y <= zlen out1 -> zlen y <= zlen out2 ->
  exists x z, be_untransform_bc1 c1 s y out1 = Ok (ROk tt, x) /\
    be_transform_bc1 c2 s (firstn (List.length y) x) out2 = Ok (ROk tt, z) /\
    firstn (List.length y) z = y.
Proof.
  intros c1 c2 s y out1 out2 K1 K2  Hm H1 H2.
  destruct (be_unbc1_slice c1 s y out1 K1 Hm H1) as (x & U & Lx & Ex).
  pose proof (be_bc1_slice c2 s x out2 K2 
    ltac:(unfold zlen in *; rewrite Lx; exact Hm) ltac:(unfold zlen in *; rewrite Lx; exact H2)) as T.
  do 2 eexists. split; [exact U|]. rewrite <- Lx, firstn_app, firstn_all, Nat.sub_diag, app_nil_r. split; [exact T|].
  rewrite Ex, Lx, firstn_app, firstn_all, Nat.sub_diag, app_nil_r. reflexivity.
Qed.

Lemma lC22_be_bc1_one_to_one : forall (c1 c2 : cfg) (s : settings) (x1 x2 out1 out2 y1 y2 : list byte),
  cpu_ok c1 -> cpu_ok c2 -> be_transform_bc1 c1 s x1 out1 = Ok (ROk tt, y1) -> be_transform_bc1 c2 s x2 out2 = Ok (ROk tt, y2) ->
  firstn (List.length x1) y1 = firstn (List.length x2) y2 -> x1 = x2.
Proof.
  intros c1 c2 s x1 x2 out1 out2 y1 y2 K1 K2  T1 T2 E.
  destruct (be_bc1_fam (decorrelation_mode s) (split_colour_endpoints s)) as (sht & shu & FM).
  assert (A : forall c x out y, cpu_ok c -> be_transform_bc1 c s x out = Ok (ROk tt, y) ->
     zlen x mod 8 = 0 /\ firstn (List.length x) y = be_bc1_layout (decorrelation_mode s) (split_colour_endpoints s) x).
  { intros c x out y K  T.
    destruct (zlen x mod 8 =? 0) eqn:Hm; [|unfold be_transform_bc1, checked in T; rewrite Hm in T; discriminate T].
    destruct (zlen out <? zlen x) eqn:Ho; [unfold be_transform_bc1, checked in T; rewrite Hm, Ho in T; discriminate T|].
    split; [lia|]. rewrite be_bc1_slice in T by first [assumption | lia]. injection T as <-.
    rewrite <- (fam_len _ _ _ _ _ _ FM ltac:(lia) x) by (unfold zlen in Hm; lia).
    rewrite firstn_app, firstn_all, Nat.sub_diag, app_nil_r. reflexivity. }
  apply A in T1; [|assumption..]. apply A in T2; [|assumption..]. destruct T1 as [M1 F1], T2 as [M2 F2].
  rewrite F1, F2 in E. apply (fam_inj _ _ _ _ _ _ FM); [lia|unfold zlen in M1; lia| |exact E].
  apply (f_equal (@List.length byte)) in E. unfold be_bc1_layout in E.
  rewrite !(fam_len _ _ _ _ _ _ FM) in E by first [lia | unfold zlen in *; lia]. exact E.
Qed.

Lemma lC46_be_bc1_permutation : forall (c : cfg) (s : settings) (x out : list byte),
  cpu_ok c -> decorrelation_mode s = VNone -> zlen x mod 8 = 0 -> zlen x <= zlen out ->
  exists y, be_transform_bc1 c s x out = Ok (ROk tt, y) /\ Permutation (firstn (List.length x) y) x.
Proof.
  intros c s x out K  HV Hm Ho.
  destruct (be_bc1_fam (decorrelation_mode s) (split_colour_endpoints s)) as (sht & shu & FM).
  eexists. split; [apply be_bc1_slice; assumption|].
  pose proof (fam_div 8 ltac:(lia) x ltac:(unfold zlen in Hm; lia)) as D.
  rewrite <- (fam_len _ _ _ _ _ _ FM ltac:(lia) x) by (unfold zlen in Hm; lia).
  fold (be_bc1_layout (decorrelation_mode s) (split_colour_endpoints s) x). rewrite firstn_app, firstn_all, Nat.sub_diag, app_nil_r.
  unfold be_bc1_layout. rewrite HV. rewrite lay_perm.
  - unfold blocks. rewrite concat_chunks by lia. reflexivity.
  - intros b Hb. apply be_bc1_none. apply (chunks_in 8 (List.length x / 8) x); [lia|exact Hb].
Qed.

Lemma lC46_be_bc1_only_colours_change : forall (c : cfg) (s : settings) (x out : list byte),
  cpu_ok c -> zlen x mod 8 = 0 -> zlen x <= zlen out ->
  exists y, be_transform_bc1 c s x out = Ok (ROk tt, y) /\
    slice y (zlen x / 2) (zlen x / 2) = List.concat (map (raw 4 4) (blocks 8 x)).
Proof.
  intros c s x out K  Hm Ho.
  eexists. split; [apply be_bc1_slice; assumption|].
  apply be_bc1_moved; unfold zlen in Hm; lia.
Qed.

Lemma lC47_be_bc1_transform_local : forall (c : cfg) (s : settings) (x x' out out' : list byte),
  cpu_ok c -> zlen x mod 8 = 0 -> List.length x = List.length x' ->
  zlen x <= zlen out -> zlen x <= zlen out' ->
  let n := (List.length x / 8)%nat in let ws := bc1_widths (split_colour_endpoints s) in
  exists y y', be_transform_bc1 c s x out = Ok (ROk tt, y) /\ be_transform_bc1 c s x' out' = Ok (ROk tt, y') /\
    (forall p, (p < List.length x)%nat ->
       nth (owner ws n p) (blocks 8 x) [] = nth (owner ws n p) (blocks 8 x') [] -> nth p y x00 = nth p y' x00) /\
    (forall i, (i < n)%nat -> List.length (filter (fun p => (owner ws n p =? i)%nat) (seq 0 (List.length x))) = 8%nat).
Proof.
  intros c s x x' out out' K  Hm HL Ho Ho' n ws.
  assert (Lz : zlen x = zlen x') by (unfold zlen; lia).
  destruct (be_bc1_fam (decorrelation_mode s) (split_colour_endpoints s)) as (sht & shu & FM).
  exists (be_bc1_layout (decorrelation_mode s) (split_colour_endpoints s) x ++ skipn (List.length x) out), (be_bc1_layout (decorrelation_mode s) (split_colour_endpoints s) x' ++ skipn (List.length x') out').
  split; [apply be_bc1_slice; assumption|]. split; [apply be_bc1_slice; [assumption|rewrite <- Lz; assumption..]|].
  assert (M : (List.length x mod 8 = 0)%nat) by (unfold zlen in Hm; lia).
  split.
  - intros p Hp E. rewrite !app_nth1 by (unfold be_bc1_layout; rewrite (fam_len _ _ _ _ _ _ FM) by lia; lia).
    apply (fam_local _ _ _ _ _ _ FM ltac:(lia) (bc1_wpos (split_colour_endpoints s)) x x' p); assumption.
  - intros i Hn. pose proof (fam_div 8 ltac:(lia) x M) as D. pose proof (owner_count ws n i (bc1_wpos (split_colour_endpoints s)) Hn) as Q.
    unfold ws in Q. rewrite (fam_sum _ _ _ _ _ _ FM) in Q. unfold ws, n in *. rewrite <- D in Q. exact Q.
Qed.

Lemma lC47_be_bc1_untransform_local : forall (c : cfg) (s : settings) (x x' out out' : list byte) (i : nat),
  cpu_ok c -> zlen x mod 8 = 0 -> List.length x = List.length x' ->
  zlen x <= zlen out -> zlen x <= zlen out' ->
  let n := (List.length x / 8)%nat in let ws := bc1_widths (split_colour_endpoints s) in
  (i < n)%nat -> (forall p, (p < List.length x)%nat -> owner ws n p = i -> nth p x x00 = nth p x' x00) ->
  exists y y', be_untransform_bc1 c s x out = Ok (ROk tt, y) /\ be_untransform_bc1 c s x' out' = Ok (ROk tt, y') /\
    nth i (blocks 8 (firstn (List.length x) y)) [] = nth i (blocks 8 (firstn (List.length x) y')) [].
Proof.
  intros c s x x' out out' i K Hm HL Ho Ho' n ws Hn E.
  assert (Lz : zlen x = zlen x') by (unfold zlen; lia).
  destruct (be_bc1_fam (decorrelation_mode s) (split_colour_endpoints s)) as (sht & shu & FM).
  destruct (be_unbc1_slice c s x out K Hm Ho) as (y & U & Ly & Ey).
  destruct (be_unbc1_slice c s x' out' K ltac:(rewrite <- Lz; exact Hm) ltac:(rewrite <- Lz; exact Ho')) as (y' & U' & Ly' & Ey').
  do 2 eexists. split; [exact U|]. split; [exact U'|].
  rewrite <- Ly at 1. rewrite HL, <- Ly'. rewrite !firstn_app, !firstn_all, !Nat.sub_diag, !app_nil_r.
  apply (fam_unlocal _ _ _ _ _ _ FM ltac:(lia) (bc1_wpos (split_colour_endpoints s))).
  - rewrite Ly. unfold zlen in Hm. lia.
  - lia.
  - rewrite Ly. exact Hn.
  - rewrite Ly. intros p Hp Hx. fold (be_bc1_layout (decorrelation_mode s) (split_colour_endpoints s) y) (be_bc1_layout (decorrelation_mode s) (split_colour_endpoints s) y').
    rewrite Ey, Ey'. apply E; assumption.
Qed.

Lemma lC22_be_bc2_onto : forall (c1 c2 : cfg) (s : settings) (y out1 out2 : list byte),
  cpu_ok c1 -> cpu_ok c2 -> zlen y mod 16 = 0 -> zlen y <= zlen out1 -> zlen y <= zlen out2 ->
  exists x z, be_untransform_bc2 c1 s y out1 = Ok (ROk tt, x) /\
    be_transform_bc2 c2 s (firstn (List.length y) x) out2 = Ok (ROk tt, z) /\
    firstn (List.length y) z = y.
Proof.
  intros c1 c2 s y out1 out2 K1 K2  Hm H1 H2.
  destruct (be_unbc2_slice c1 s y out1 K1 Hm H1) as (x & U & Lx & Ex).
  pose proof (be_bc2_slice c2 s x out2 K2 
    ltac:(unfold zlen in *; rewrite Lx; exact Hm) ltac:(unfold zlen in *; rewrite Lx; exact H2)) as T.
  do 2 eexists. split; [exact U|]. rewrite <- Lx, firstn_app, firstn_all, Nat.sub_diag, app_nil_r. split; [exact T|].
  rewrite Ex, Lx, firstn_app, firstn_all, Nat.sub_diag, app_nil_r. reflexivity.
Qed.

Lemma lC22_be_bc2_one_to_one : forall (c1 c2 : cfg) (s : settings) (x1 x2 out1 out2 y1 y2 : list byte),
  cpu_ok c1 -> cpu_ok c2 -> be_transform_bc2 c1 s x1 out1 = Ok (ROk tt, y1) -> be_transform_bc2 c2 s x2 out2 = Ok (ROk tt, y2) ->
  firstn (List.length x1) y1 = firstn (List.length x2) y2 -> x1 = x2.
Proof.
  intros c1 c2 s x1 x2 out1 out2 y1 y2 K1 K2  T1 T2 E.
  destruct (be_bc2_fam (decorrelation_mode s) (split_colour_endpoints s)) as (sht & shu & FM).
  assert (A : forall c x out y, cpu_ok c -> be_transform_bc2 c s x out = Ok (ROk tt, y) ->
     zlen x mod 16 = 0 /\ firstn (List.length x) y = be_bc2_layout (decorrelation_mode s) (split_colour_endpoints s) x).
  { intros c x out y K  T.
    destruct (zlen x mod 16 =? 0) eqn:Hm; [|unfold be_transform_bc2, checked in T; rewrite Hm in T; discriminate T].
    destruct (zlen out <? zlen x) eqn:Ho; [unfold be_transform_bc2, checked in T; rewrite Hm, Ho in T; discriminate T|].
    split; [lia|]. rewrite be_bc2_slice in T by first [assumption | lia]. injection T as <-.
    rewrite <- (fam_len _ _ _ _ _ _ FM ltac:(lia) x) by (unfold zlen in Hm; lia).
    rewrite firstn_app, firstn_all, Nat.sub_diag, app_nil_r. reflexivity. }
  apply A in T1; [|assumption..]. apply A in T2; [|assumption..]. destruct T1 as [M1 F1], T2 as [M2 F2].
  rewrite F1, F2 in E. apply (fam_inj _ _ _ _ _ _ FM); [lia|unfold zlen in M1; lia| |exact E].
  apply (f_equal (@List.length byte)) in E. unfold be_bc2_layout in E.
  rewrite !(fam_len _ _ _ _ _ _ FM) in E by first [lia | unfold zlen in *; lia]. exact E.
Qed.

Lemma lC46_be_bc2_permutation : forall (c : cfg) (s : settings) (x out : list byte),
  cpu_ok c -> decorrelation_mode s = VNone -> zlen x mod 16 = 0 -> zlen x <= zlen out ->
  exists y, be_transform_bc2 c s x out = Ok (ROk tt, y) /\ Permutation (firstn (List.length x) y) x.
Proof.
  intros c s x out K  HV Hm Ho.
  destruct (be_bc2_fam (decorrelation_mode s) (split_colour_endpoints s)) as (sht & shu & FM).
  eexists. split; [apply be_bc2_slice; assumption|].
  pose proof (fam_div 16 ltac:(lia) x ltac:(unfold zlen in Hm; lia)) as D.
  rewrite <- (fam_len _ _ _ _ _ _ FM ltac:(lia) x) by (unfold zlen in Hm; lia).
  fold (be_bc2_layout (decorrelation_mode s) (split_colour_endpoints s) x). rewrite firstn_app, firstn_all, Nat.sub_diag, app_nil_r.
  unfold be_bc2_layout. rewrite HV. rewrite lay_perm.
  - unfold blocks. rewrite concat_chunks by lia. reflexivity.
  - intros b Hb. apply be_bc2_none. apply (chunks_in 16 (List.length x / 16) x); [lia|exact Hb].
Qed.

Lemma lC46_be_bc2_only_colours_change : forall (c : cfg) (s : settings) (x out : list byte),
  cpu_ok c -> zlen x mod 16 = 0 -> zlen x <= zlen out ->
  exists y, be_transform_bc2 c s x out = Ok (ROk tt, y) /\
    slice y 0 (zlen x / 2) = List.concat (map (raw 0 8) (blocks 16 x)) /\
    slice y (zlen x / 2 + zlen x / 4) (zlen x / 4) = List.concat (map (raw 12 4) (blocks 16 x)).
Proof.
  intros c s x out K  Hm Ho.
  eexists. split; [apply be_bc2_slice; assumption|].
  apply be_bc2_moved; unfold zlen in Hm; lia.
Qed.

Lemma lC47_be_bc2_transform_local : forall (c : cfg) (s : settings) (x x' out out' : list byte),
  cpu_ok c -> zlen x mod 16 = 0 -> List.length x = List.length x' ->
  zlen x <= zlen out -> zlen x <= zlen out' ->
  let n := (List.length x / 16)%nat in let ws := bc2_widths (split_colour_endpoints s) in
  exists y y', be_transform_bc2 c s x out = Ok (ROk tt, y) /\ be_transform_bc2 c s x' out' = Ok (ROk tt, y') /\
    (forall p, (p < List.length x)%nat ->
       nth (owner ws n p) (blocks 16 x) [] = nth (owner ws n p) (blocks 16 x') [] -> nth p y x00 = nth p y' x00) /\
    (forall i, (i < n)%nat -> List.length (filter (fun p => (owner ws n p =? i)%nat) (seq 0 (List.length x))) = 16%nat).
Proof.
  intros c s x x' out out' K  Hm HL Ho Ho' n ws.
  assert (Lz : zlen x = zlen x') by (unfold zlen; lia).
  destruct (be_bc2_fam (decorrelation_mode s) (split_colour_endpoints s)) as (sht & shu & FM).
  exists (be_bc2_layout (decorrelation_mode s) (split_colour_endpoints s) x ++ skipn (List.length x) out), (be_bc2_layout (decorrelation_mode s) (split_colour_endpoints s) x' ++ skipn (List.length x') out').
  split; [apply be_bc2_slice; assumption|]. split; [apply be_bc2_slice; [assumption|rewrite <- Lz; assumption..]|].
  assert (M : (List.length x mod 16 = 0)%nat) by (unfold zlen in Hm; lia).
  split.
  - intros p Hp E. rewrite !app_nth1 by (unfold be_bc2_layout; rewrite (fam_len _ _ _ _ _ _ FM) by lia; lia).
    apply (fam_local _ _ _ _ _ _ FM ltac:(lia) (bc2_wpos (split_colour_endpoints s)) x x' p); assumption.
  - intros i Hn. pose proof (fam_div 16 ltac:(lia) x M) as D. pose proof (owner_count ws n i (bc2_wpos (split_colour_endpoints s)) Hn) as Q.
    unfold ws in Q. rewrite (fam_sum _ _ _ _ _ _ FM) in Q. unfold ws, n in *. rewrite <- D in Q. exact Q.
Qed.

Lemma lC47_be_bc2_untransform_local : forall (c : cfg) (s : settings) (x x' out out' : list byte) (i : nat),
  cpu_ok c ->  zlen x mod 16 = 0 -> List.length x = List.length x' ->
  zlen x <= zlen out -> zlen x <= zlen out' ->
  let n := (List.length x / 16)%nat in let ws := bc2_widths (split_colour_endpoints s) in
  (i < n)%nat -> (forall p, (p < List.length x)%nat -> owner ws n p = i -> nth p x x00 = nth p x' x00) ->
  exists y y', be_untransform_bc2 c s x out = Ok (ROk tt, y) /\ be_untransform_bc2 c s x' out' = Ok (ROk tt, y') /\
    nth i (blocks 16 (firstn (List.length x) y)) [] = nth i (blocks 16 (firstn (List.length x) y')) [].
Proof.
  intros c s x x' out out' i K  Hm HL Ho Ho' n ws Hn E.
  assert (Lz : zlen x = zlen x') by (unfold zlen; lia).
  destruct (be_bc2_fam (decorrelation_mode s) (split_colour_endpoints s)) as (sht & shu & FM).
  destruct (be_unbc2_slice c s x out K Hm Ho) as (y & U & Ly & Ey).
  destruct (be_unbc2_slice c s x' out' K ltac:(rewrite <- Lz; exact Hm) ltac:(rewrite <- Lz; exact Ho')) as (y' & U' & Ly' & Ey').
  do 2 eexists. split; [exact U|]. split; [exact U'|].
  rewrite <- Ly at 1. rewrite HL, <- Ly'. rewrite !firstn_app, !firstn_all, !Nat.sub_diag, !app_nil_r.
  apply (fam_unlocal _ _ _ _ _ _ FM ltac:(lia) (bc2_wpos (split_colour_endpoints s))).
  - rewrite Ly. unfold zlen in Hm. lia.
  - lia.
  - rewrite Ly. exact Hn.
  - rewrite Ly. intros p Hp Hx. fold (be_bc2_layout (decorrelation_mode s) (split_colour_endpoints s) y) (be_bc2_layout (decorrelation_mode s) (split_colour_endpoints s) y').
    rewrite Ey, Ey'. apply E; assumption.
Qed.

Lemma lC22_be_bc3_onto : forall (c1 c2 : cfg) (s : settings3) (y out1 out2 : list byte),
  cpu_ok c1 -> cpu_ok c2 -> zlen y mod 16 = 0 -> zlen y <= zlen out1 -> zlen y <= zlen out2 ->
  exists x z, be_untransform_bc3 c1 s y out1 = Ok (ROk tt, x) /\
    be_transform_bc3 c2 s (firstn (List.length y) x) out2 = Ok (ROk tt, z) /\
    firstn (List.length y) z = y.
Proof.
  intros c1 c2 s y out1 out2 K1 K2  Hm H1 H2.
  destruct (be_unbc3_slice c1 s y out1 K1 Hm H1) as (x & U & Lx & Ex).
  pose proof (be_bc3_slice c2 s x out2 K2 
    ltac:(unfold zlen in *; rewrite Lx; exact Hm) ltac:(unfold zlen in *; rewrite Lx; exact H2)) as T.
  do 2 eexists. split; [exact U|]. rewrite <- Lx, firstn_app, firstn_all, Nat.sub_diag, app_nil_r. split; [exact T|].
  rewrite Ex, Lx, firstn_app, firstn_all, Nat.sub_diag, app_nil_r. reflexivity.
Qed.

Lemma lC22_be_bc3_one_to_one : forall (c1 c2 : cfg) (s : settings3) (x1 x2 out1 out2 y1 y2 : list byte),
  cpu_ok c1 -> cpu_ok c2 -> be_transform_bc3 c1 s x1 out1 = Ok (ROk tt, y1) -> be_transform_bc3 c2 s x2 out2 = Ok (ROk tt, y2) ->
  firstn (List.length x1) y1 = firstn (List.length x2) y2 -> x1 = x2.
Proof.
  intros c1 c2 s x1 x2 out1 out2 y1 y2 K1 K2  T1 T2 E.
  destruct (be_bc3_fam (decorrelation_mode3 s) (split_alpha_endpoints s) (split_colour_endpoints3 s)) as (sht & shu & FM).
  assert (A : forall c x out y, cpu_ok c -> be_transform_bc3 c s x out = Ok (ROk tt, y) ->
     zlen x mod 16 = 0 /\ firstn (List.length x) y = be_bc3_layout (decorrelation_mode3 s) (split_alpha_endpoints s) (split_colour_endpoints3 s) x).
  { intros c x out y K  T.
    destruct (zlen x mod 16 =? 0) eqn:Hm; [|unfold be_transform_bc3, checked in T; rewrite Hm in T; discriminate T].
    destruct (zlen out <? zlen x) eqn:Ho; [unfold be_transform_bc3, checked in T; rewrite Hm, Ho in T; discriminate T|].
    split; [lia|]. rewrite be_bc3_slice in T by first [assumption | lia]. injection T as <-.
    rewrite <- (fam_len _ _ _ _ _ _ FM ltac:(lia) x) by (unfold zlen in Hm; lia).
    rewrite firstn_app, firstn_all, Nat.sub_diag, app_nil_r. reflexivity. }
  apply A in T1; [|assumption..]. apply A in T2; [|assumption..]. destruct T1 as [M1 F1], T2 as [M2 F2].
  rewrite F1, F2 in E. apply (fam_inj _ _ _ _ _ _ FM); [lia|unfold zlen in M1; lia| |exact E].
  apply (f_equal (@List.length byte)) in E. unfold be_bc3_layout in E.
  rewrite !(fam_len _ _ _ _ _ _ FM) in E by first [lia | unfold zlen in *; lia]. exact E.
Qed.

Lemma lC46_be_bc3_permutation : forall (c : cfg) (s : settings3) (x out : list byte),
  cpu_ok c -> decorrelation_mode3 s = VNone -> zlen x mod 16 = 0 -> zlen x <= zlen out ->
  exists y, be_transform_bc3 c s x out = Ok (ROk tt, y) /\ Permutation (firstn (List.length x) y) x.
Proof.
  intros c s x out K  HV Hm Ho.
  destruct (be_bc3_fam (decorrelation_mode3 s) (split_alpha_endpoints s) (split_colour_endpoints3 s)) as (sht & shu & FM).
  eexists. split; [apply be_bc3_slice; assumption|].
  pose proof (fam_div 16 ltac:(lia) x ltac:(unfold zlen in Hm; lia)) as D.
  rewrite <- (fam_len _ _ _ _ _ _ FM ltac:(lia) x) by (unfold zlen in Hm; lia).
  fold (be_bc3_layout (decorrelation_mode3 s) (split_alpha_endpoints s) (split_colour_endpoints3 s) x). rewrite firstn_app, firstn_all, Nat.sub_diag, app_nil_r.
  unfold be_bc3_layout. rewrite HV. rewrite lay_perm.
  - unfold blocks. rewrite concat_chunks by lia. reflexivity.
  - intros b Hb. apply be_bc3_none. apply (chunks_in 16 (List.length x / 16) x); [lia|exact Hb].
Qed.

Lemma lC46_be_bc3_only_colours_change : forall (c : cfg) (s : settings3) (x out : list byte),
  cpu_ok c -> zlen x mod 16 = 0 -> zlen x <= zlen out ->
  exists y, be_transform_bc3 c s x out = Ok (ROk tt, y) /\
    slice y (zlen x / 8) (6 * (zlen x / 16)) = List.concat (map (raw 2 6) (blocks 16 x)) /\
    slice y (zlen x / 2 + zlen x / 4) (zlen x / 4) = List.concat (map (raw 12 4) (blocks 16 x)) /\
    Permutation (slice y 0 (zlen x / 8)) (List.concat (map (raw 0 2) (blocks 16 x))).
Proof.
  intros c s x out K  Hm Ho.
  eexists. split; [apply be_bc3_slice; assumption|].
  apply be_bc3_moved; unfold zlen in Hm; lia.
Qed.

Lemma lC47_be_bc3_transform_local : forall (c : cfg) (s : settings3) (x x' out out' : list byte),
  cpu_ok c -> zlen x mod 16 = 0 -> List.length x = List.length x' ->
  zlen x <= zlen out -> zlen x <= zlen out' ->
  let n := (List.length x / 16)%nat in let ws := bc3_widths (split_alpha_endpoints s) (split_colour_endpoints3 s) in
  exists y y', be_transform_bc3 c s x out = Ok (ROk tt, y) /\ be_transform_bc3 c s x' out' = Ok (ROk tt, y') /\
    (forall p, (p < List.length x)%nat ->
       nth (owner ws n p) (blocks 16 x) [] = nth (owner ws n p) (blocks 16 x') [] -> nth p y x00 = nth p y' x00) /\
    (forall i, (i < n)%nat -> List.length (filter (fun p => (owner ws n p =? i)%nat) (seq 0 (List.length x))) = 16%nat).
Proof.
  intros c s x x' out out' K  Hm HL Ho Ho' n ws.
  assert (Lz : zlen x = zlen x') by (unfold zlen; lia).
  destruct (be_bc3_fam (decorrelation_mode3 s) (split_alpha_endpoints s) (split_colour_endpoints3 s)) as (sht & shu & FM).
  exists (be_bc3_layout (decorrelation_mode3 s) (split_alpha_endpoints s) (split_colour_endpoints3 s) x ++ skipn (List.length x) out), (be_bc3_layout (decorrelation_mode3 s) (split_alpha_endpoints s) (split_colour_endpoints3 s) x' ++ skipn (List.length x') out').
  split; [apply be_bc3_slice; assumption|]. split; [apply be_bc3_slice; [assumption|rewrite <- Lz; assumption..]|].
  assert (M : (List.length x mod 16 = 0)%nat) by (unfold zlen in Hm; lia).
  split.
  - intros p Hp E. rewrite !app_nth1 by (unfold be_bc3_layout; rewrite (fam_len _ _ _ _ _ _ FM) by lia; lia).
    apply (fam_local _ _ _ _ _ _ FM ltac:(lia) (bc3_wpos (split_alpha_endpoints s) (split_colour_endpoints3 s)) x x' p); assumption.
  - intros i Hn. pose proof (fam_div 16 ltac:(lia) x M) as D. pose proof (owner_count ws n i (bc3_wpos (split_alpha_endpoints s) (split_colour_endpoints3 s)) Hn) as Q.
    unfold ws in Q. rewrite (fam_sum _ _ _ _ _ _ FM) in Q. unfold ws, n in *. rewrite <- D in Q. exact Q.
Qed.

Lemma lC47_be_bc3_untransform_local : forall (c : cfg) (s : settings3) (x x' out out' : list byte) (i : nat),
  cpu_ok c -> zlen x mod 16 = 0 -> List.length x = List.length x' ->
  zlen x <= zlen out -> zlen x <= zlen out' ->
  let n := (List.length x / 16)%nat in let ws := bc3_widths (split_alpha_endpoints s) (split_colour_endpoints3 s) in
  (i < n)%nat -> (forall p, (p < List.length x)%nat -> owner ws n p = i -> nth p x x00 = nth p x' x00) ->
  exists y y', be_untransform_bc3 c s x out = Ok (ROk tt, y) /\ be_untransform_bc3 c s x' out' = Ok (ROk tt, y') /\
    nth i (blocks 16 (firstn (List.length x) y)) [] = nth i (blocks 16 (firstn (List.length x) y')) [].
Proof.
  intros c s x x' out out' i K Hm HL Ho Ho' n ws Hn E.
  assert (Lz : zlen x = zlen x') by (unfold zlen; lia).
  destruct (be_bc3_fam (decorrelation_mode3 s) (split_alpha_endpoints s) (split_colour_endpoints3 s)) as (sht & shu & FM).
  destruct (be_unbc3_slice c s x out K Hm Ho) as (y & U & Ly & Ey).
  destruct (be_unbc3_slice c s x' out' K ltac:(rewrite <- Lz; exact Hm) ltac:(rewrite <- Lz; exact Ho')) as (y' & U' & Ly' & Ey').
  do 2 eexists. split; [exact U|]. split; [exact U'|].
  rewrite <- Ly at 1. rewrite HL, <- Ly'. rewrite !firstn_app, !firstn_all, !Nat.sub_diag, !app_nil_r.
  apply (fam_unlocal _ _ _ _ _ _ FM ltac:(lia) (bc3_wpos (split_alpha_endpoints s) (split_colour_endpoints3 s))).
  - rewrite Ly. unfold zlen in Hm. lia.
  - lia.
  - rewrite Ly. exact Hn.
  - rewrite Ly. intros p Hp Hx. fold (be_bc3_layout (decorrelation_mode3 s) (split_alpha_endpoints s) (split_colour_endpoints3 s) y) (be_bc3_layout (decorrelation_mode3 s) (split_alpha_endpoints s) (split_colour_endpoints3 s) y').
    rewrite Ey, Ey'. apply E; assumption.
Qed.

